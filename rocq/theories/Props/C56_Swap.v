(** C56: std::swap exchanges two objects; sorting and shuffling objects by swaps only changes their places. *)
From Coq Require Import String List NArith ZArith Arith Bool Lia.
From Verif.Base Require Import Res.
From Verif.Spec Require Import Words Client ObjClient Swap KeccakTypes Log2 Sp800185 CShakeArgs Ownership.
From Verif.Model Require Import Buffer Stream Api ObjApi Library.
From Verif.Model Require KeccakObj CShake TupleHash.
From Verif.Tests Require Import Kit.
From Verif.Proof Require Import Swap.
From Verif.Proof Require Log2Witness Ownership CShake TupleHash.
Import ListNotations.

(** The classes that are values: any program [p], then swaps of any pairs of objects, then any program [q] that does not use the
    temporary: what is shown, or how the program fails, is the same as without swaps and with the names in [q] changed accordingly. *)
Theorem C56_values : forall (a : alg) dbg t ws p q, Forall (far t) ws -> Forall (cmd_avoids t) q ->
  shown (exec (class a dbg) (p ++ swaps cmd_swap t ws ++ q) (fun _ => c_new (class a dbg))) =
  shown (exec (class a dbg) (p ++ map (rename_cmd (origin ws)) q) (fun _ => c_new (class a dbg))).
Proof. intros a dbg t ws p q. exact (vswaps_ok (class a dbg) t ws p q _). Qed.
Print Assumptions C56_values.

(** SHA-3 and SHAKE objects of any lengths, which hold a vector; objects may be swapped with themselves. *)
Theorem C56_sha3 : forall k dbg t ws p q os s, Forall (far t) ws ->
  oexec (KeccakObj.objects k dbg) p (fun _ => None) = Ok (os, s) -> Forall (alive s) ws -> Forall (avoids t) q ->
  shown (oexec (KeccakObj.objects k dbg) (p ++ swaps swap t ws ++ q) (fun _ => None)) =
  shown (oexec (KeccakObj.objects k dbg) (p ++ map (rename (origin ws)) q) (fun _ => None)).
Proof. intros k dbg t ws p q os s H1 H2 H3 H4. exact (swaps_ok _ t ws p q _ os s (keccak_hands k dbg) H1 H2 H3 H4). Qed.
Print Assumptions C56_sha3.

(** cSHAKE and TupleHash objects, which own sponges through pointers: in programs that the interface promises something for (C17, C18, C33). *)
Theorem C56_cshake : forall lg dbg t i j p q os s x y os' s', log2_accurate lg -> t <> i -> t <> j -> i <> j ->
  orun (fun a l => cshake128 a (concat l)) ok_cargs span_ok may_reset may_assign p (fun _ => NoObject) os s -> s i = Live x -> s j = Live y ->
  Forall (avoids t) q -> orun (fun a l => cshake128 a (concat l)) ok_cargs span_ok may_reset may_assign (map (rename (other i j)) q) s os' s' ->
  exists st st', oexec (Model.CShake.cls128 lg dbg) (p ++ swap t i j ++ q) (fun _ => None) = Ok (os ++ os', st) /\
    oexec (Model.CShake.cls128 lg dbg) (p ++ map (rename (other i j)) q) (fun _ => None) = Ok (os ++ os', st').
Proof. intros lg dbg t i j p q os s x y os' s' Hlg. exact (promised_swap _ _ _ _ _ _ (Proof.CShake.cshake128_correct lg dbg Hlg) t i j p q os s x y os' s'). Qed.
Print Assumptions C56_cshake.
Theorem C56_cshake256 : forall lg dbg t i j p q os s x y os' s', log2_accurate lg -> t <> i -> t <> j -> i <> j ->
  orun (fun a l => cshake256 a (concat l)) ok_cargs span_ok may_reset may_assign p (fun _ => NoObject) os s -> s i = Live x -> s j = Live y ->
  Forall (avoids t) q -> orun (fun a l => cshake256 a (concat l)) ok_cargs span_ok may_reset may_assign (map (rename (other i j)) q) s os' s' ->
  exists st st', oexec (Model.CShake.cls256 lg dbg) (p ++ swap t i j ++ q) (fun _ => None) = Ok (os ++ os', st) /\
    oexec (Model.CShake.cls256 lg dbg) (p ++ map (rename (other i j)) q) (fun _ => None) = Ok (os ++ os', st').
Proof. intros lg dbg t i j p q os s x y os' s' Hlg. exact (promised_swap _ _ _ _ _ _ (Proof.CShake.cshake256_correct lg dbg Hlg) t i j p q os s x y os' s'). Qed.
Print Assumptions C56_cshake256.
Theorem C56_tuplehash : forall lg dbg t i j p q os s x y os' s', log2_accurate lg -> t <> i -> t <> j -> i <> j ->
  orun tuplehash128 ok_targs short no_reset live_assign p (fun _ => NoObject) os s -> s i = Live x -> s j = Live y ->
  Forall (avoids t) q -> orun tuplehash128 ok_targs short no_reset live_assign (map (rename (other i j)) q) s os' s' ->
  exists st st', oexec (Model.TupleHash.cls128 lg dbg) (p ++ swap t i j ++ q) (fun _ => None) = Ok (os ++ os', st) /\
    oexec (Model.TupleHash.cls128 lg dbg) (p ++ map (rename (other i j)) q) (fun _ => None) = Ok (os ++ os', st').
Proof. intros lg dbg t i j p q os s x y os' s' Hlg. exact (promised_swap _ _ _ _ _ _ (Proof.TupleHash.tuplehash128_correct lg dbg Hlg) t i j p q os s x y os' s'). Qed.
Print Assumptions C56_tuplehash.
Theorem C56_tuplehash256 : forall lg dbg t i j p q os s x y os' s', log2_accurate lg -> t <> i -> t <> j -> i <> j ->
  orun tuplehash256 ok_targs short no_reset live_assign p (fun _ => NoObject) os s -> s i = Live x -> s j = Live y ->
  Forall (avoids t) q -> orun tuplehash256 ok_targs short no_reset live_assign (map (rename (other i j)) q) s os' s' ->
  exists st st', oexec (Model.TupleHash.cls256 lg dbg) (p ++ swap t i j ++ q) (fun _ => None) = Ok (os ++ os', st) /\
    oexec (Model.TupleHash.cls256 lg dbg) (p ++ map (rename (other i j)) q) (fun _ => None) = Ok (os ++ os', st').
Proof. intros lg dbg t i j p q os s x y os' s' Hlg. exact (promised_swap _ _ _ _ _ _ (Proof.TupleHash.tuplehash256_correct lg dbg Hlg) t i j p q os s x y os' s'). Qed.
Print Assumptions C56_tuplehash256.

(** "Two cSHAKE objects are exchanged completely": not so.  Object 0 was made without name and customization, and [a] was moved to it; it still
    holds its old sponge.  A copy of an object without name and customization can be assigned to it.  After a swap with object 1 the
    old sponge is still in object 0, not in object 1, and the assignment to object 1 dereferences a null pointer. *)
Theorem C56_hidden_refuted : forall lg dbg l a b c, log2_accurate lg -> (0 <= l)%Z -> ok_cargs a -> ok_cargs b -> ok_cargs c ->
  customized a = true -> customized b = true -> customized c = false ->
  let p := [Construct 0 (l, [], []); Construct 1 a; MoveAssign 0 1; Construct 1 b; Construct 3 c] in
  let q := [CopyAssign 1 3] in
  oexec (Model.CShake.cls128 lg dbg) (p ++ swap 2 0 1 ++ q) (fun _ => None) = Ub NullDeref /\
  exists st, oexec (Model.CShake.cls128 lg dbg) (p ++ map (rename (other 0 1)) q) (fun _ => None) = Ok ([], st).
Proof.
  intros lg dbg l a b c Hlg Hl Ha Hb Hc Ca Cb Cc p q.
  assert (ok_cargs (l, [], [])) as H0 by (split; [exact Hl|split; (split; [constructor|apply N.leb_le; reflexivity])]).
  assert (Forall (in_order ok_cargs span_ok) (p ++ swap 2 0 1 ++ q)) as H1.
  { repeat (apply Forall_cons; [cbn [in_order]; first [assumption | exact I | discriminate]|]). constructor. }
  assert (Forall (in_order ok_cargs span_ok) (p ++ map (rename (other 0 1)) q)) as H2.
  { repeat (apply Forall_cons; [cbn [in_order]; first [assumption | exact I | discriminate]|]). constructor. }
  pose proof (proj1 (Proof.Ownership.cshake_exact lg dbg _ Hlg H1)) as E1. pose proof (proj1 (Proof.Ownership.cshake_exact lg dbg _ Hlg H2)) as E2.
  assert (forall k : _ -> bool, k (l, [], []) = false -> k a = true -> k b = true -> k c = false ->
    fate_of k clen (p ++ swap 2 0 1 ++ q) (fun _ => None) = NullPointer /\
    exists s, fate_of k clen (p ++ map (rename (other 0 1)) q) (fun _ => None) = Goes s) as F.
  { intros k K0 Ka Kb Kc. unfold p, q, swap. cbn [app map rename other Nat.eqb fate_of fate1]. unfold created. rewrite K0, Ka, Kb, Kc.
    split; [|eexists]; reflexivity. }
  destruct (F customized eq_refl Ca Cb Cc) as [F1 (s & F2)].
  rewrite F1 in E1. rewrite F2 in E2. split; [exact E1|]. destruct E2 as ([o st] & E2). exists st. rewrite E2.
  assert (o = []) as -> by (apply (silent (Model.CShake.cls128 lg dbg) (p ++ map (rename (other 0 1)) q)) with (s := fun _ => None) (st := st); [|exact E2]; repeat (apply Forall_cons; [reflexivity|]); apply Forall_nil). reflexivity.
Qed.
Print Assumptions C56_hidden_refuted.


(** ** cases *)
(** three SHA-1 objects, reversed by one swap and then rotated by another; object 3 is the temporary *)
Example C56_case_sha1 : let C := class SHA1 true in
  let p := [On 0 (AddData (text "abc")); On 0 Finalize; On 1 (AddData (text "b")); On 2 Finalize] in
  let q := [On 0 ToString; On 1 ToString; On 2 Finalize; On 2 ToString] in
  Forall (far 3) [(0, 2); (1, 2)] /\ Forall (cmd_avoids 3) q /\
  map (origin [(0, 2); (1, 2)]) [0; 1; 2] = [2; 0; 1] /\
  shown (exec C (p ++ swaps cmd_swap 3 [(0, 2); (1, 2)] ++ q) (fun _ => c_new C)) =
  Ok [OChars (text "da39a3ee5e6b4b0d3255bfef95601890afd80709"); OChars (text "a9993e364706816aba3e25717850c26c9cd0d89d"); OChars (text "e9d71f5ee7c92d6dc9e92ffdad17b8bd49418f98")].
Proof.
  split; [repeat constructor; cbn; discriminate|]. split; [repeat (apply Forall_cons; [intros H; cbn in H; intuition discriminate|]); apply Forall_nil|]. split; [reflexivity|].
  vm_compute. reflexivity.
Qed.

(** SHAKE128 objects of lengths 8 and 4, one finalized; then an object with itself *)
Example C56_case_shake : let C := KeccakObj.objects Shake_128 true in
  let p := [Construct 0 8%Z; Feed 0 (text "abc"); Fin 0; Construct 1 4%Z] in
  let q := [Vec 1; Fin 0; Vec 0] in
  shown (oexec C (p ++ swaps swap 2 [(0, 1); (1, 1)] ++ q) (fun _ => None)) = Ok [OBytes (unhex "5881092dd818bf5c"); OBytes (unhex "7f9c2ba4")] /\
  shown (oexec C (p ++ [Vec 0; Fin 1; Vec 1]) (fun _ => None)) = Ok [OBytes (unhex "5881092dd818bf5c"); OBytes (unhex "7f9c2ba4")].
Proof. split; vm_compute; reflexivity. Qed.

(** a swap without the temporary is not one: both objects are the same afterwards *)
Example C56_wrong_swap : let C := class SHA1 true in
  shown (exec C [On 0 (AddData (text "abc")); On 0 Finalize; On 1 Finalize; CopyTo 0 1; CopyTo 1 0; On 1 ToString] (fun _ => c_new C)) <>
  shown (exec C [On 0 (AddData (text "abc")); On 0 Finalize; On 1 Finalize; On 0 ToString] (fun _ => c_new C)).
Proof. vm_compute. discriminate. Qed.

(** cSHAKE objects of both kinds *)
Definition plain : Z * list N * list N := (16%Z, [], []).
Definition named : Z * list N * list N := (32%Z, [], text "Email Signature").
Lemma plain_ok : ok_cargs plain.
Proof. split; [discriminate|split; (split; [constructor|apply N.leb_le; reflexivity])]. Qed.
Lemma named_ok : ok_cargs named.
Proof. split; [discriminate|split; (split; [repeat constructor|apply N.leb_le; reflexivity])]. Qed.
Example C56_case_cshake : let q : list (ocmd (Z * list N * list N)) := [Fin 0; Vec 0; Rst 1; Fin 1; Vec 1] in exists os s x y os' s',
  orun (fun a l => cshake128 a (concat l)) ok_cargs span_ok may_reset may_assign [Construct 0 plain; Feed 0 (text "abc"); Construct 1 named] (fun _ => NoObject) os s /\
  s 0 = Live x /\ s 1 = Live y /\ Forall (avoids 2) q /\
  orun (fun a l => cshake128 a (concat l)) ok_cargs span_ok may_reset may_assign (map (rename (other 0 1)) q) s os' s' /\
  os' = [OBytes (cshake128 named []); OBytes (cshake128 plain [])].
Proof.
  intros q. do 6 eexists. split.
  { eapply or_cons; [apply os_construct, plain_ok|]. eapply or_cons; [eapply os_feed; [reflexivity|apply span_okb_ok; reflexivity]|].
    eapply or_cons; [apply os_construct, named_ok|]. apply or_nil. }
  split; [reflexivity|]. split; [reflexivity|]. split; [repeat (apply Forall_cons; [intros H; cbn in H; intuition discriminate|]); apply Forall_nil|]. split.
  { unfold q. cbn [map rename other Nat.eqb]. eapply or_cons; [eapply os_fin; reflexivity|]. eapply or_cons; [eapply os_vec; reflexivity|].
    eapply or_cons; [eapply os_reset; [reflexivity|reflexivity]|]. eapply or_cons; [eapply os_fin; reflexivity|].
    eapply or_cons; [eapply os_vec; reflexivity|]. apply or_nil. }
  reflexivity.
Qed.
Example C56_case_hidden : log2_accurate Proof.Log2Witness.correct_log2 /\ ok_cargs plain /\ ok_cargs named /\ customized plain = false /\ customized named = true.
Proof. exact (conj Proof.Log2Witness.correct_log2_accurate (conj plain_ok (conj named_ok (conj eq_refl eq_refl)))). Qed.
