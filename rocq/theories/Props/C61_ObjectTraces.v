(** C61: cSHAKE and TupleHash: array indices and branches depend on sizes only. *)
From Coq Require Import List NArith ZArith Arith Bool.
From Verif.Base Require Import Leak.
From Verif.Base Require Res.
From Verif.Spec Require Import Client ObjClient ObjShape.
From Verif.Model Require Import ObjApi LeakObjects.
From Verif.Model Require CShake TupleHash.
From Verif.Proof Require LeakErase LeakObjErase LeakEqual LeakObjEqual.
Import ListNotations.
Local Open Scope N_scope.

(** how a run ends: normally, with an exception, with a fault *)
Definition ending {A} (r : Res.res A) : option (Res.exn + Res.ub_kind) :=
  match r with Res.Ok _ => None | Res.Throw e => Some (inl e) | Res.Ub u => Some (inr u) end.

(** The runs with indices and branches are the runs of Model/ObjApi.v. *)
Theorem C61_erased : forall (log2 : N -> N) (dbg : bool),
  (forall p, outcome (seen_c128 log2 dbg p) = oexec (CShake.cls128 log2 dbg) p (fun _ => None)) /\
  (forall p, outcome (seen_c256 log2 dbg p) = oexec (CShake.cls256 log2 dbg) p (fun _ => None)) /\
  (forall p, outcome (seen_t128 log2 dbg p) = oexec (TupleHash.cls128 log2 dbg) p (fun _ => None)) /\
  (forall p, outcome (seen_t256 log2 dbg p) = oexec (TupleHash.cls256 log2 dbg) p (fun _ => None)).
Proof.
  intros log2 dbg. split; [|split; [|split]]; intros p.
  - exact (Proof.LeakObjErase.er_orun _ _ (Proof.LeakObjErase.cshake_faithful log2 _ _ _ _ dbg) p _).
  - exact (Proof.LeakObjErase.er_orun _ _ (Proof.LeakObjErase.cshake_faithful log2 _ _ _ _ dbg) p _).
  - exact (Proof.LeakObjErase.er_orun _ _ (Proof.LeakObjErase.tuple_faithful log2 _ _ _ _ dbg) p _).
  - exact (Proof.LeakObjErase.er_orun _ _ (Proof.LeakObjErase.tuple_faithful log2 _ _ _ _ dbg) p _).
Qed.
Print Assumptions C61_erased.

Lemma ct_ending {A B} (R : A -> B -> Prop) (x : res A) (y : res B) : Proof.LeakEqual.ct R x y -> trace x = trace y /\ ending (outcome x) = ending (outcome y).
Proof. intros [H K]. split; [exact H|]. unfold outcome. destruct (snd x), (snd y); cbn in *; congruence || contradiction. Qed.

(** Two programs that differ only in the contents of names, customization strings and data show the same indices and branches and
    end alike, for every std::log2, in both builds, with any construction, copies, moves, assignments, resets and read-outs except
    toString() (C59 says what that shows). *)
Theorem C61_cshake : forall (log2 : N -> N) dbg p q, same_oshape cshake_args p q -> no_otext p ->
  (trace (seen_c128 log2 dbg p) = trace (seen_c128 log2 dbg q) /\ ending (outcome (seen_c128 log2 dbg p)) = ending (outcome (seen_c128 log2 dbg q))) /\
  (trace (seen_c256 log2 dbg p) = trace (seen_c256 log2 dbg q) /\ ending (outcome (seen_c256 log2 dbg p)) = ending (outcome (seen_c256 log2 dbg q))).
Proof.
  intros log2 dbg p q S T. split.
  - exact (ct_ending _ _ _ (Proof.LeakObjEqual.ct_orun _ _ _ _ (Proof.LeakObjEqual.cshake_quiet log2 _ _ _ _ dbg) p q S T (fun _ => None) (fun _ => None) (fun _ => I))).
  - exact (ct_ending _ _ _ (Proof.LeakObjEqual.ct_orun _ _ _ _ (Proof.LeakObjEqual.cshake_quiet log2 _ _ _ _ dbg) p q S T (fun _ => None) (fun _ => None) (fun _ => I))).
Qed.
Print Assumptions C61_cshake.

Theorem C61_tuple : forall (log2 : N -> N) dbg p q, same_oshape tuple_args p q -> no_otext p ->
  (trace (seen_t128 log2 dbg p) = trace (seen_t128 log2 dbg q) /\ ending (outcome (seen_t128 log2 dbg p)) = ending (outcome (seen_t128 log2 dbg q))) /\
  (trace (seen_t256 log2 dbg p) = trace (seen_t256 log2 dbg q) /\ ending (outcome (seen_t256 log2 dbg p)) = ending (outcome (seen_t256 log2 dbg q))).
Proof.
  intros log2 dbg p q S T. split.
  - exact (ct_ending _ _ _ (Proof.LeakObjEqual.ct_orun _ _ _ _ (Proof.LeakObjEqual.tuple_quiet log2 _ _ _ _ dbg) p q S T (fun _ => None) (fun _ => None) (fun _ => I))).
  - exact (ct_ending _ _ _ (Proof.LeakObjEqual.ct_orun _ _ _ _ (Proof.LeakObjEqual.tuple_quiet log2 _ _ _ _ dbg) p q S T (fun _ => None) (fun _ => None) (fun _ => I))).
Qed.
Print Assumptions C61_tuple.

(** ** Concrete cases *)
Definition prog (key data : list N) : list (ocmd (Z * list N * list N)) :=
  [Construct 0 (32%Z, [], key); Feed 0 data; CopyConstruct 1 0; Fin 1; Vec 1; MoveAssign 0 1; Std 0].
(** two keys and two messages of the same lengths *)
Example C61_shape : same_oshape cshake_args (prog [1; 2; 3] [10; 20]) (prog [7; 8; 9] [0; 255]) /\ no_otext (prog [1; 2; 3] [10; 20]).
Proof.
  split.
  - constructor; [apply sh_construct; split; [reflexivity|split; reflexivity]|]. constructor; [apply sh_feed; reflexivity|]. repeat (constructor; [apply sh_other; constructor|]). constructor.
  - intros i H. repeat destruct H as [H|H]; try discriminate H; destruct H.
Qed.
(** without name and customization: the constructor branches on m_customized and on the sign of the length *)
Example C61_plain : trace (seen_c128 (fun _ => 0) false [Construct 0 (32%Z, [], [])]) = [Branch true; Branch false]. Proof. reflexivity. Qed.
Example C61_negative : trace (seen_c128 (fun _ => 0) false [Construct 0 ((-1)%Z, [], [])]) = [Branch true; Branch true]. Proof. reflexivity. Qed.
(** lengths show *)
Example C61_length : trace (seen_c128 (fun _ => 0) false [Construct 0 (32%Z, [], []); Feed 0 [5]]) <> trace (seen_c128 (fun _ => 0) false [Construct 0 (32%Z, [], []); Feed 0 []]).
Proof. vm_compute. discriminate. Qed.
