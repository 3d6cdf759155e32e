(** C50: cSHAKE and TupleHash objects, calls in any order, moved-from objects included: exactly which programs go through. *)
From Coq Require Import String List NArith ZArith Arith Bool Lia.
From Verif.Base Require Import Res.
From Verif.Spec Require Import Words Client ObjClient Log2 Sp800185 CShakeArgs Ownership.
From Verif.Spec Require Keccak.
From Verif.Model Require Import Buffer Stream ObjApi.
From Verif.Model Require CShake TupleHash.
From Verif.Tests Require Import Kit.
From Verif.Proof Require Log2Witness.
From Verif.Proof Require Ownership.
Import ListNotations.

(** the outcome of a program is the announced one *)
Definition as_announced {A B : Type} (f : fate A) (r : res B) : Prop :=
  match f with
  | Goes _ => exists x, r = Ok x
  | NullPointer => r = Ub NullDeref
  | TextOfNothing => r = Ub EmptyFront
  | NoSuchObject => r = Ub UninitRead
  end.

Theorem C50_cshake : forall lg dbg p, log2_accurate lg -> Forall (in_order ok_cargs span_ok) p ->
  as_announced (fate_of customized clen p (fun _ => None)) (oexec (Model.CShake.cls128 lg dbg) p (fun _ => None)) /\
  as_announced (fate_of customized clen p (fun _ => None)) (oexec (Model.CShake.cls256 lg dbg) p (fun _ => None)).
Proof. exact Proof.Ownership.cshake_exact. Qed.
Print Assumptions C50_cshake.

Theorem C50_tuplehash : forall lg dbg p, log2_accurate lg -> Forall (in_order ok_targs short) p ->
  as_announced (fate_of always tlen p (fun _ => None)) (oexec (Model.TupleHash.cls128 lg dbg) p (fun _ => None)) /\
  as_announced (fate_of always tlen p (fun _ => None)) (oexec (Model.TupleHash.cls256 lg dbg) p (fun _ => None)).
Proof. exact Proof.Ownership.tuple_exact. Qed.
Print Assumptions C50_tuplehash.

(** In particular no program fails that leaves moved-from objects alone except for moving to them, assigns copies
    only between objects that both have or both lack name and customization, and does not ask for the text of an empty digest.
    finalize(), addData() and reset() may come in any order and any number of times. *)
Theorem C50_careful : forall lg dbg p, log2_accurate lg -> Forall (in_order ok_cargs span_ok) p -> careful customized clen p (fun _ => NotYet) ->
  (exists x, oexec (Model.CShake.cls128 lg dbg) p (fun _ => None) = Ok x) /\ (exists x, oexec (Model.CShake.cls256 lg dbg) p (fun _ => None) = Ok x).
Proof. exact Proof.Ownership.cshake_careful. Qed.
Print Assumptions C50_careful.

Theorem C50_careful_tuplehash : forall lg dbg p, log2_accurate lg -> Forall (in_order ok_targs short) p -> careful always tlen p (fun _ => NotYet) ->
  (exists x, oexec (Model.TupleHash.cls128 lg dbg) p (fun _ => None) = Ok x) /\ (exists x, oexec (Model.TupleHash.cls256 lg dbg) p (fun _ => None) = Ok x).
Proof. exact Proof.Ownership.tuple_careful. Qed.
Print Assumptions C50_careful_tuplehash.

(** "A moved-from object has no content and cannot be read": not so.  Object 0 is fed m, then object 1 is moved to it, then object 0
    is moved away; it is left with what it had been fed before, and finalize() and toVector() give the SHAKE output of m. *)
Theorem C50_moved_refuted : forall lg dbg l a m, log2_accurate lg -> (0 <= l)%Z -> ok_cargs a -> customized a = true -> span_ok m ->
  let p := [Construct 0 (l, [], []); Feed 0 m; Construct 1 a; MoveAssign 0 1; MoveConstruct 2 0; Fin 0; Vec 0] in
  (exists st, oexec (Model.CShake.cls128 lg dbg) p (fun _ => None) = Ok ([OBytes (Spec.Keccak.shake128 (Z.to_nat l) m)], st)) /\
  (exists st, oexec (Model.CShake.cls256 lg dbg) p (fun _ => None) = Ok ([OBytes (Spec.Keccak.shake256 (Z.to_nat l) m)], st)).
Proof. exact Proof.Ownership.returns_both. Qed.
Print Assumptions C50_moved_refuted.

(** ** cases *)
Local Definition plain : Z * list N * list N := (16%Z, [], []).
Local Definition named : Z * list N * list N := (32%Z, [], text "Email Signature").

(** calls after finalize(), a second finalize(), moves between the two kinds, a new object in the place of a moved-from one *)
Definition mixed : list (ocmd (Z * list N * list N)) :=
  [Construct 0 plain; Feed 0 (text "abc"); Fin 0; Fin 0; Feed 0 (text "d"); Str 0; Construct 1 named; MoveAssign 0 1; Feed 0 (text "x"); Fin 0; Str 0;
   MoveConstruct 2 0; Rst 2; Feed 2 (text "y"); Construct 1 plain; Vec 1; MoveAssign 0 1; CopyConstruct 3 0; CopyAssign 3 0; Uint 3 8; Std 3].

Local Ltac here := first [reflexivity | discriminate | (intros H; discriminate H)].
Lemma mixed_in_order : Forall (in_order ok_cargs span_ok) mixed.
Proof.
  assert (ok_cargs plain) as H1 by (split; [discriminate|split; (split; [constructor|apply N.leb_le; reflexivity])]).
  assert (ok_cargs named) as H2 by (split; [discriminate|split; (split; [repeat constructor|apply N.leb_le; reflexivity])]).
  unfold mixed. repeat (apply Forall_cons; [cbn [in_order]; first [exact H1 | exact H2 | exact I | discriminate | (apply span_okb_ok; reflexivity)]|]). constructor.
Qed.

Example mixed_goes : exists s, fate_of customized clen mixed (fun _ => None) = Goes s.
Proof. eexists. reflexivity. Qed.

Example mixed_careful : careful customized clen mixed (fun _ => NotYet).
Proof.
  unfold mixed. repeat (econstructor; [here..|]). all: try here. constructor.
Qed.

Example mixed_runs : forall dbg, exists x, oexec (Model.CShake.cls128 Proof.Log2Witness.correct_log2 dbg) mixed (fun _ => None) = Ok x.
Proof. intros dbg. exact (proj1 (C50_careful _ dbg mixed Proof.Log2Witness.correct_log2_accurate mixed_in_order mixed_careful)). Qed.

(** the three ways to fail *)
Example moved_away : fate_of customized clen [Construct 0 plain; MoveConstruct 1 0; Fin 0] (fun _ => None) = NullPointer.
Proof. reflexivity. Qed.
Example other_kind : fate_of customized clen [Construct 0 plain; Construct 1 named; CopyAssign 0 1] (fun _ => None) = NullPointer.
Proof. reflexivity. Qed.
Example no_digest_yet : fate_of customized clen [Construct 0 plain; Feed 0 (text "abc"); Str 0] (fun _ => None) = TextOfNothing.
Proof. reflexivity. Qed.
Example never_made : fate_of always tlen [Construct 0 (16%Z, []); MoveAssign 1 0] (fun _ => None) = NoSuchObject.
Proof. reflexivity. Qed.
(** what is an error after one history is none after another *)
Example other_kind_after_moves : exists s,
  fate_of customized clen [Construct 0 plain; Construct 1 named; MoveAssign 0 1; Construct 2 plain; CopyAssign 0 2; Fin 0; Vec 0] (fun _ => None) = Goes s.
Proof. eexists. reflexivity. Qed.

Example returned : forall dbg, exists st, oexec (Model.CShake.cls128 Proof.Log2Witness.correct_log2 dbg)
  [Construct 0 plain; Feed 0 (text "abc"); Construct 1 named; MoveAssign 0 1; MoveConstruct 2 0; Fin 0; Vec 0] (fun _ => None) =
  Ok ([OBytes (Spec.Keccak.shake128 16 (text "abc"))], st).
Proof.
  intros dbg. exact (proj1 (C50_moved_refuted _ dbg 16 named (text "abc") Proof.Log2Witness.correct_log2_accurate ltac:(discriminate)
    ltac:(split; [discriminate|split; (split; [repeat constructor|apply N.leb_le; reflexivity])]) eq_refl ltac:(apply span_okb_ok; reflexivity))).
Qed.
