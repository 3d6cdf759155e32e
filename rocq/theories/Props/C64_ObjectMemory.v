(** C64: what of name, customization string and data is left in the memory of cSHAKE and TupleHash objects. *)
From Coq Require Import String List NArith ZArith Arith Bool Lia.
From Verif.Base Require Import Res.
From Verif.Spec Require Import Words Client ObjClient Log2 CShakeArgs ObjMemory.
From Verif.Model Require Import Buffer ObjApi.
From Verif.Tests Require Import Kit KitObj.
From Verif.Spec Require Sp800185.
From Verif.Model Require Keccak CShake TupleHash.
From Verif.Proof Require ObjResidue Log2Witness.
Import ListNotations.
Local Open Scope N_scope.

(** the memory of a Keccak object that has seen nothing: rate, digest length *)
Definition clean (rate len : nat) : Buffer * Model.Keccak.St := (mkBuffer (repeat 0 rate) 0, Model.Keccak.mkSt (repeat 0 25) [] len).

(** reset() after any program without move assignment, whatever std::log2 returns: one of the two pointers is null, the object
    behind the other one has seen nothing.  Which one, and the digest length, come from a constructor call of the program. *)
Theorem C64_cshake128_reset : forall lg dbg (p : list (ocmd (Z * list N * list N))) os st i x y, Forall calm p ->
  oexec (Model.CShake.cls128 lg dbg) p (fun _ => None) = Ok (os, st) -> st i = Some x -> oc_reset (Model.CShake.cls128 lg dbg) x = Ok y ->
  exists len, cmade p false len /\ y = Model.CShake.mkObj false (Some (clean 168 len)) None \/
              cmade p true len /\ y = Model.CShake.mkObj true None (Some (clean 168 len)).
Proof.
  intros lg dbg p os st i x y Hp E Hx Ey. destruct (Proof.ObjResidue.cshake_reset _ _ _ _ _ _ p os st i x y Hp E Hx Ey) as (len & Hm & ->). exists len.
  destruct (Model.CShake.m_customized x); [right|left]; (split; [exact Hm|reflexivity]).
Qed.
Print Assumptions C64_cshake128_reset.
Theorem C64_cshake256_reset : forall lg dbg (p : list (ocmd (Z * list N * list N))) os st i x y, Forall calm p ->
  oexec (Model.CShake.cls256 lg dbg) p (fun _ => None) = Ok (os, st) -> st i = Some x -> oc_reset (Model.CShake.cls256 lg dbg) x = Ok y ->
  exists len, cmade p false len /\ y = Model.CShake.mkObj false (Some (clean 136 len)) None \/
              cmade p true len /\ y = Model.CShake.mkObj true None (Some (clean 136 len)).
Proof.
  intros lg dbg p os st i x y Hp E Hx Ey. destruct (Proof.ObjResidue.cshake_reset _ _ _ _ _ _ p os st i x y Hp E Hx Ey) as (len & Hm & ->). exists len.
  destruct (Model.CShake.m_customized x); [right|left]; (split; [exact Hm|reflexivity]).
Qed.
Print Assumptions C64_cshake256_reset.
Theorem C64_tuple128_reset : forall lg dbg (p : list (ocmd (Z * list N))) os st i x y, Forall calm p ->
  oexec (Model.TupleHash.cls128 lg dbg) p (fun _ => None) = Ok (os, st) -> st i = Some x -> oc_reset (Model.TupleHash.cls128 lg dbg) x = Ok y ->
  exists z, tmade p z /\ y = Model.TupleHash.mkObj (Model.CShake.mkObj true None (Some (clean 168 (Z.to_nat z)))) z.
Proof. intros lg dbg p os st i x y Hp E Hx Ey. exact (Proof.ObjResidue.tuple_reset _ _ _ _ _ _ p os st i x y Hp E Hx Ey). Qed.
Print Assumptions C64_tuple128_reset.
Theorem C64_tuple256_reset : forall lg dbg (p : list (ocmd (Z * list N))) os st i x y, Forall calm p ->
  oexec (Model.TupleHash.cls256 lg dbg) p (fun _ => None) = Ok (os, st) -> st i = Some x -> oc_reset (Model.TupleHash.cls256 lg dbg) x = Ok y ->
  exists z, tmade p z /\ y = Model.TupleHash.mkObj (Model.CShake.mkObj true None (Some (clean 136 (Z.to_nat z)))) z.
Proof. intros lg dbg p os st i x y Hp E Hx Ey. exact (Proof.ObjResidue.tuple_reset _ _ _ _ _ _ p os st i x y Hp E Hx Ey). Qed.
Print Assumptions C64_tuple256_reset.

(** finalize() after any such program: the buffer is all zero, the other pointer is null; the data are in the state and the
    digest only *)
Theorem C64_cshake128_finalize : forall lg dbg (p : list (ocmd (Z * list N * list N))) os st i x y, Forall calm p ->
  oexec (Model.CShake.cls128 lg dbg) p (fun _ => None) = Ok (os, st) -> st i = Some x -> oc_finalize (Model.CShake.cls128 lg dbg) x = Ok y ->
  exists s, y = Model.CShake.mkObj false (Some (mkBuffer (repeat 0 168) 0, s)) None \/ y = Model.CShake.mkObj true None (Some (mkBuffer (repeat 0 168) 0, s)).
Proof.
  intros lg dbg p os st i x y Hp E Hx Ey. destruct (Proof.ObjResidue.cshake_fin _ _ _ _ _ _ p os st i x y Hp E Hx Ey) as (s & ->). exists s.
  destruct (Model.CShake.m_customized x); [right|left]; reflexivity.
Qed.
Print Assumptions C64_cshake128_finalize.
Theorem C64_cshake256_finalize : forall lg dbg (p : list (ocmd (Z * list N * list N))) os st i x y, Forall calm p ->
  oexec (Model.CShake.cls256 lg dbg) p (fun _ => None) = Ok (os, st) -> st i = Some x -> oc_finalize (Model.CShake.cls256 lg dbg) x = Ok y ->
  exists s, y = Model.CShake.mkObj false (Some (mkBuffer (repeat 0 136) 0, s)) None \/ y = Model.CShake.mkObj true None (Some (mkBuffer (repeat 0 136) 0, s)).
Proof.
  intros lg dbg p os st i x y Hp E Hx Ey. destruct (Proof.ObjResidue.cshake_fin _ _ _ _ _ _ p os st i x y Hp E Hx Ey) as (s & ->). exists s.
  destruct (Model.CShake.m_customized x); [right|left]; reflexivity.
Qed.
Print Assumptions C64_cshake256_finalize.
Theorem C64_tuple128_finalize : forall lg dbg (p : list (ocmd (Z * list N))) os st i x y, Forall calm p ->
  oexec (Model.TupleHash.cls128 lg dbg) p (fun _ => None) = Ok (os, st) -> st i = Some x -> oc_finalize (Model.TupleHash.cls128 lg dbg) x = Ok y ->
  exists s, Model.TupleHash.m_cshake y = Model.CShake.mkObj true None (Some (mkBuffer (repeat 0 168) 0, s)).
Proof. intros lg dbg p os st i x y Hp E Hx Ey. exact (Proof.ObjResidue.tuple_fin _ _ _ _ _ _ p os st i x y Hp E Hx Ey). Qed.
Print Assumptions C64_tuple128_finalize.
Theorem C64_tuple256_finalize : forall lg dbg (p : list (ocmd (Z * list N))) os st i x y, Forall calm p ->
  oexec (Model.TupleHash.cls256 lg dbg) p (fun _ => None) = Ok (os, st) -> st i = Some x -> oc_finalize (Model.TupleHash.cls256 lg dbg) x = Ok y ->
  exists s, Model.TupleHash.m_cshake y = Model.CShake.mkObj true None (Some (mkBuffer (repeat 0 136) 0, s)).
Proof. intros lg dbg p os st i x y Hp E Hx Ey. exact (Proof.ObjResidue.tuple_fin _ _ _ _ _ _ p os st i x y Hp E Hx Ey). Qed.
Print Assumptions C64_tuple256_finalize.

(** With move assignment the claim fails.  An object without name and customization string holds d; an object that has them is
    moved into it and it is reset: d is still in its memory, in plain, behind the pointer that is no longer in use. *)
Theorem C64_cshake128_move_refuted : forall lg dbg l d a, log2_accurate lg -> (0 <= l)%Z -> (List.length d < 168)%nat -> ok_cargs a -> customized a = true ->
  exists st x b s, oexec (Model.CShake.cls128 lg dbg) [Construct 0 (l, [], []); Feed 0 d; Construct 1 a; MoveAssign 0 1; Rst 0] (fun _ => None) = Ok ([], st) /\
    st 0%nat = Some x /\ Model.CShake.m_shake x = Some (b, s) /\ firstn (List.length d) (b_arr b) = d.
Proof.
  intros lg dbg l d a Hlg Hl Hd Ha Hc. destruct (Proof.ObjResidue.left128 lg dbg Hlg l d a Hl Hd Ha Hc) as (st & x & E & Hx & Hs).
  exists st, x. do 2 eexists. split; [exact E|]. split; [exact Hx|]. split; [exact Hs|]. cbn [b_arr]. now rewrite firstn_app, Nat.sub_diag, firstn_all, firstn_O, app_nil_r.
Qed.
Print Assumptions C64_cshake128_move_refuted.
Theorem C64_cshake256_move_refuted : forall lg dbg l d a, log2_accurate lg -> (0 <= l)%Z -> (List.length d < 136)%nat -> ok_cargs a -> customized a = true ->
  exists st x b s, oexec (Model.CShake.cls256 lg dbg) [Construct 0 (l, [], []); Feed 0 d; Construct 1 a; MoveAssign 0 1; Rst 0] (fun _ => None) = Ok ([], st) /\
    st 0%nat = Some x /\ Model.CShake.m_shake x = Some (b, s) /\ firstn (List.length d) (b_arr b) = d.
Proof.
  intros lg dbg l d a Hlg Hl Hd Ha Hc. destruct (Proof.ObjResidue.left256 lg dbg Hlg l d a Hl Hd Ha Hc) as (st & x & E & Hx & Hs).
  exists st, x. do 2 eexists. split; [exact E|]. split; [exact Hx|]. split; [exact Hs|]. cbn [b_arr]. now rewrite firstn_app, Nat.sub_diag, firstn_all, firstn_O, app_nil_r.
Qed.
Print Assumptions C64_cshake256_move_refuted.

(** ** Cases *)
Definition lg := Proof.Log2Witness.correct_log2.
(** a customized object: the constructor runs, so does reset(), and the customization string has gone *)
Definition key : Z * list N * list N := (32%Z, [], text "Email Signature").
Example keyed : exists st x, oexec (Model.CShake.cls128 lg true) [Construct 0 key] (fun _ => None) = Ok ([], st) /\ st 0%nat = Some x /\
  oc_reset (Model.CShake.cls128 lg true) x = Ok (Model.CShake.mkObj true None (Some (clean 168 32))).
Proof.
  destruct (Proof.ObjResidue.made128 lg true Proof.Log2Witness.correct_log2_accurate key) as [k E]; [split; [lia|split; shorts]|reflexivity|].
  eexists. exists (Model.CShake.mkObj true None (Some k)). assert (oexec (Model.CShake.cls128 lg true) [Construct 0 key] (fun _ => None) = Ok ([], sput (Model.CShake.cls128 lg true) (fun _ => None) 0 (Model.CShake.mkObj true None (Some k)))) as X
    by (cbn [oexec exec_ocmd]; now rewrite E).
  split; [exact X|]. split; [reflexivity|].
  assert (exists y, oc_reset (Model.CShake.cls128 lg true) (Model.CShake.mkObj true None (Some k)) = Ok y) as [y Ey] by (eexists; reflexivity).
  rewrite Ey. f_equal.
  destruct (C64_cshake128_reset lg true [Construct 0 key] [] _ 0 _ y ltac:(repeat constructor) X eq_refl Ey) as (len & [[(i & a & [Ea|[]] & Hc & _) _]|[(i & a & [Ea|[]] & _ & ->) ->]]); injection Ea as <- <-; [discriminate|reflexivity].
Qed.
(** a plain object, a copy of it, and a move: the bytes wait in the copy and in the target of the move; reset() of the copy *)
Definition plain : list (ocmd (Z * list N * list N)) := [Construct 0 (32%Z, [], []); Feed 0 [7; 8; 9]; CopyConstruct 1 0; MoveConstruct 2 0; Construct 3 (8%Z, [], []); CopyAssign 3 1].
Example plain_calm : Forall calm plain.
Proof. repeat constructor. Qed.
Definition memory (p : list (ocmd (Z * list N * list N))) (i : nat) : option (option (list N) * bool) :=
  match oexec (Model.CShake.cls128 lg true) p (fun _ => None) with
  | Ok (_, st) => option_map (fun x => (option_map (fun k => firstn 4 (b_arr (fst k))) (Model.CShake.m_shake x), Model.CShake.m_customized x)) (st i)
  | _ => None
  end.
Example plain_memory : map (memory plain) [0%nat; 1%nat; 2%nat; 3%nat] = [Some (None, false); Some (Some [7; 8; 9; 0], false); Some (Some [7; 8; 9; 0], false); Some (Some [7; 8; 9; 0], false)].
Proof. vm_compute. reflexivity. Qed.
Example plain_reset : memory (plain ++ [Rst 1]) 1 = Some (Some [0; 0; 0; 0], false).
Proof. vm_compute. reflexivity. Qed.
(** a TupleHash object *)
Example tuple_keyed : exists st x, oexec (Model.TupleHash.cls256 lg false) [Construct 5 (64%Z, [75; 69; 89])] (fun _ => None) = Ok ([], st) /\ st 5%nat = Some x /\
  oc_reset (Model.TupleHash.cls256 lg false) x = Ok (Model.TupleHash.mkObj (Model.CShake.mkObj true None (Some (clean 136 64))) 64).
Proof.
  destruct (Proof.ObjResidue.tuple256_one lg false 64%Z [75; 69; 89] Proof.Log2Witness.correct_log2_accurate) as (st & x & y & E & Hx & Ey); [split; [lia|split; shorts]|].
  exists st, x. split; [exact E|]. split; [exact Hx|]. rewrite Ey. f_equal.
  destruct (C64_tuple256_reset lg false [Construct 5 (64%Z, [75; 69; 89])] [] st 5 x y ltac:(repeat constructor) E Hx Ey) as (z & (i & c & [Ea|[]]) & ->). now injection Ea as _ <- _.
Qed.
