(** MD2: finalized objects with equal digests that == distinguishes. *)
From Coq Require Import List NArith Arith Bool Lia ZArith ZifyNat.
From Verif.Base Require Import Res CWord.
From Verif.Spec Require Import Words Client Merkle.
From Verif.Model Require Import Buffer Stream Api Library.
From Verif.Proof Require Import Words Streaming Blocks Api Equality Pigeonhole.
From Verif.Spec Require Md2.
From Verif.Model Require Md2.
From Verif.Proof Require Md2 Residue SpongeNeq.
Import ListNotations.
Module S := Verif.Spec.Md2.

Lemma S_inj x y : (x < 256)%N -> (y < 256)%N -> S.S x = S.S y -> x = y.
Proof.
  intros Hx Hy E. assert (N.to_nat x = N.to_nat y) as H; [|lia]. unfold S.S in E.
  assert (NoDup S.PI_SUBST) as D.
  { apply (NoDup_count_occ' N.eq_dec).
    assert (forallb (fun v => count_occ N.eq_dec S.PI_SUBST v =? 1) S.PI_SUBST = true) as C by (vm_compute; reflexivity).
    rewrite forallb_forall in C. intros v Hv. apply Nat.eqb_eq, C, Hv. }
  rewrite (NoDup_nth S.PI_SUBST 0%N) in D. apply D; [change (length S.PI_SUBST) with 256; lia|change (length S.PI_SUBST) with 256; lia|exact E].
Qed.

(** ** the checksum *)
Lemma xor_same (c x y : N) : N.lxor c x = N.lxor c y -> x = y.
Proof. intros E. apply (f_equal (N.lxor c)) in E. now rewrite <- !N.lxor_assoc, !N.lxor_nilpotent, !N.lxor_0_l in E. Qed.
Lemma xor_byte x y : (x < 256)%N -> (y < 256)%N -> (N.lxor x y < 256)%N.
Proof. intros Hx Hy. exact (bnd_lxor 8 x y Hx Hy). Qed.

Lemma mix_inj : forall C L b b', (L < 256)%N -> bytes_ok C -> bytes_ok b -> bytes_ok b' -> length b = length C -> length b' = length C ->
  S.mix_checksum L C b = S.mix_checksum L C b' -> b = b'.
Proof.
  induction C as [|c C IH]; intros L [|x b] [|y b'] HL HC Hb Hb' Lb Lb' E; try discriminate Lb; try discriminate Lb'; [reflexivity|].
  apply Forall_cons_iff in HC, Hb, Hb'. destruct HC as [Hc HC], Hb as [Hx Hb], Hb' as [Hy Hb']. cbn [S.mix_checksum] in E. injection E as E1 E2.
  pose proof (xor_same _ _ _ E1) as E3. apply S_inj in E3; [|now apply xor_byte|now apply xor_byte].
  rewrite (N.lxor_comm x), (N.lxor_comm y) in E3. apply xor_same in E3. subst y. f_equal.
  apply (IH (N.lxor c (S.S (N.lxor x L)))); auto. apply xor_byte; [exact Hc|apply Md2.S_bnd].
Qed.
(** the checksum before the block is determined by the one after it *)
Lemma mix_back : forall C C' L L' b, length C = length b -> length C' = length b -> S.mix_checksum L C b = S.mix_checksum L' C' b -> tl C = tl C' /\ (L = L' -> C = C').
Proof.
  assert (G : forall C C' L b, length C = length b -> length C' = length b -> S.mix_checksum L C b = S.mix_checksum L C' b -> C = C').
  { induction C as [|c C IH]; intros [|c' C'] L [|x b] H1 H2 E; try discriminate H1; try discriminate H2; [reflexivity|]. cbn [S.mix_checksum] in E. injection E as E1 E2.
    rewrite (N.lxor_comm c), (N.lxor_comm c') in E1. pose proof (xor_same _ _ _ E1) as ->. f_equal. exact (IH C' _ b (eq_add_S _ _ H1) (eq_add_S _ _ H2) E2). }
  intros C C' L L' b H1 H2 E. split; [|intros ->; now apply (G _ _ L' b)].
  destruct C as [|c C], C' as [|c' C'], b as [|x b]; try discriminate H1; try discriminate H2; [reflexivity|]. cbn [S.mix_checksum] in E. injection E as E1 E2.
  rewrite E1 in E2. cbn [tl]. exact (G C C' _ b (eq_add_S _ _ H1) (eq_add_S _ _ H2) E2).
Qed.
Transparent S.checksum_block.
Lemma last_tl (l l' : list N) : 2 <= length l -> 2 <= length l' -> tl l = tl l' -> last l 0%N = last l' 0%N.
Proof. destruct l as [|a [|b l]], l' as [|c [|d l']]; cbn [length tl]; intros H1 H2 E; try lia. injection E as -> ->. reflexivity. Qed.
Lemma block_back C C' b : length C = 16 -> length C' = 16 -> length b = 16 -> S.checksum_block C b = S.checksum_block C' b -> C = C'.
Proof.
  intros H1 H2 H3 E. unfold S.checksum_block in E. destruct (mix_back C C' _ _ b ltac:(congruence) ltac:(congruence) E) as [T H]. apply H, last_tl; [lia|lia|exact T].
Qed.
Lemma block_inj C b b' : length C = 16 -> bytes_ok C -> length b = 16 -> length b' = 16 -> bytes_ok b -> bytes_ok b' -> S.checksum_block C b = S.checksum_block C b' -> b = b'.
Proof.
  intros H1 H2 H3 H4 H5 H6 E. unfold S.checksum_block in E. apply (mix_inj C (last C 0%N)); try assumption; try congruence. apply (Md2.last_bnd 8 C H2).
Qed.
Lemma block_length C b : length C = 16 -> length b = 16 -> length (S.checksum_block C b) = 16.
Proof. intros H1 H2. unfold S.checksum_block. rewrite Md2.mix_length; congruence. Qed.
Opaque S.checksum_block.

(** messages of one block have different checksums *)
Definition zero16 := repeat 0%N 16.
Definition last_block := repeat 16%N 16.
Lemma one_block m : length m = 16 -> S.checksum (S.pad m) = S.checksum_block (S.checksum_block zero16 m) last_block.
Proof.
  intros Hm. unfold S.checksum, S.pad. rewrite Hm. change (16 mod 16) with 0. change (16 - 0) with 16. change (repeat (N.of_nat 16) 16) with last_block.
  rewrite pieces_cons by (assumption || lia). rewrite <- (app_nil_r last_block) at 1. rewrite pieces_cons by (reflexivity || lia). reflexivity.
Qed.
Lemma checksum_inj m m' : length m = 16 -> length m' = 16 -> bytes_ok m -> bytes_ok m' -> S.checksum (S.pad m) = S.checksum (S.pad m') -> m = m'.
Proof.
  intros Hm Hm' Bm Bm' E. rewrite !one_block in E by assumption.
  assert (forall w, length w = 16 -> length (S.checksum_block zero16 w) = 16) as L by (intros w Hw; now apply block_length).
  apply block_back in E; [|now apply L|now apply L|reflexivity]. apply (block_inj zero16); try assumption; [reflexivity|apply bytes_ok_repeat; reflexivity].
Qed.

(** ** what == compares determines the checksum *)
Notation view m := (Model.Md2.m_x (snd (Md2.done m))).
Lemma view_checksum m m' : bytes_ok m -> bytes_ok m' -> view m = view m' -> S.checksum (S.pad m) = S.checksum (S.pad m').
Proof.
  intros Hm Hm' E. destruct (Md2.state_ok m Hm) as (X1 & _ & C1 & _ & _), (Md2.state_ok m' Hm') as (X2 & _ & C2 & _ & _).
  cbn [Md2.done snd] in E.
  assert (Run : forall s b, length b = 16 -> Md2.run b s = Md2.cf s b).
  { intros s b Hb. unfold Md2.run, Merkle.chain. rewrite <- (app_nil_r b) at 1. rewrite pieces_cons by (auto; lia). reflexivity. }
  rewrite (Run _ _ C1), (Run _ _ C2), !Md2.cf_x in E.
  pose proof (Residue.MD2.absorb_back _ _ _ _ ltac:(rewrite X1; lia) ltac:(rewrite X2; lia) C1 C2 E) as Ec.
  unfold Md2.state in Ec. now rewrite !(proj2 (Md2.run_parts _ _)) in Ec.
Qed.

(** the message of sixteen bytes 0xdd has the checksum of the empty message, and another m_x *)
Definition twin := repeat 221%N 16.
Lemma twin_checksum : S.checksum (S.pad twin) = S.checksum (S.pad []).
Proof. vm_compute. reflexivity. Qed.
Lemma twin_digest : S.md2 twin <> S.md2 [].
Proof. vm_compute. discriminate. Qed.
Lemma done_hashed dbg m : span_ok m -> hashed (class MD2 dbg) m (Md2.done m) /\ c_array (class MD2 dbg) (Md2.done m) = Ok (S.md2 m).
Proof. intros Hm. exact (SpongeNeq.implements_hashed _ _ _ _ _ m (Md2.md2_implements dbg) Hm I). Qed.
Lemma md2_view m : S.md2 m = firstn 16 (view m).
Proof. rewrite Md2.done_x. reflexivity. Qed.
Lemma view_empty m : length m = 16 -> bytes_ok m -> view m <> view [].
Proof.
  intros Hm Bm E. assert (m = twin) as ->.
  { apply checksum_inj; [exact Hm|reflexivity|exact Bm|apply bytes_ok_repeat; reflexivity|]. rewrite twin_checksum. apply view_checksum; [exact Bm|constructor|exact E]. }
  apply twin_digest. now rewrite !md2_view, E.
Qed.

Lemma pair_of_more n (f : list N -> list N) : 0 < n -> (forall s, bytes_ok s -> length (f s) = n /\ bytes_ok (f s)) ->
  exists m m', In m (strings n) /\ (In m' (strings n) \/ m' = []) /\ m <> m' /\ f m = f m'.
Proof.
  intros Hn Hf. destruct (pigeonhole (list_eq_dec N.eq_dec) f ([] :: strings n) (strings n)) as (s & t & Hs & Ht & Hne & E).
  - constructor; [|apply strings_nodup]. intros H. apply strings_in in H. destruct H as [H _]. cbn [length] in H. lia.
  - intros w Hw. apply in_map_iff in Hw. destruct Hw as (s & <- & Hs).
    assert (bytes_ok s) as Bs by (destruct Hs as [<-|Hs]; [constructor|apply (strings_in n s Hs)]).
    apply in_strings; apply (Hf s Bs).
  - cbn [length]. lia.
  - destruct Hs as [<-|Hs].
    + destruct Ht as [<-|Ht]; [congruence|]. exists t, []. split; [exact Ht|]. split; [right; reflexivity|]. split; [congruence|now symmetry].
    + exists s, t. split; [exact Hs|]. split; [destruct Ht as [<-|Ht]; [right; reflexivity|left; exact Ht]|]. split; [exact Hne|exact E].
Qed.
Lemma view_length w : bytes_ok w -> length (view w) = 48.
Proof. intros Bw. destruct (Md2.state_ok w Bw) as (I1 & I2 & I3 & I4 & I5). cbn [Md2.done snd]. apply Md2.impl_ok; [repeat split; assumption|exact I4|unfold aligned; rewrite I3; reflexivity]. Qed.
Lemma md2_size s : bytes_ok s -> length (S.md2 s) = 16 /\ bytes_ok (S.md2 s).
Proof. intros Bs. split; [|apply (Md2.read_ok s Bs)]. rewrite md2_view, firstn_length, view_length by exact Bs. reflexivity. Qed.

Lemma view_neq m m' : bytes_ok m -> bytes_ok m' -> length m = 16 -> (length m' = 16 \/ m' = []) -> m <> m' -> view m <> view m'.
Proof.
  intros Bm Bm' Lm Lm' Hne Ev. destruct Lm' as [L| ->]; [|exact (view_empty m Lm Bm Ev)].
  apply Hne. apply checksum_inj; try assumption. now apply view_checksum.
Qed.
Lemma equal_view dbg m m' : bytes_ok m -> bytes_ok m' -> view m <> view m' -> equal MD2 dbg (Md2.done m) (Md2.done m') = Ok false.
Proof.
  intros Bm Bm' Ev. cbn [equal]. destruct (eq_array_spec 48 (view m) (view m') (view_length m Bm) (view_length m' Bm')) as (b & Eb & Hb).
  refine (eq_trans Eb _). destruct b; [exfalso|reflexivity]. now apply Ev, Hb.
Qed.
Theorem md2_collision dbg : exists m m' x y u, bytes_ok m /\ bytes_ok m' /\ length m = 16 /\ (length m' = 16 \/ m' = []) /\
  hashed (class MD2 dbg) m x /\ hashed (class MD2 dbg) m' y /\ c_array (class MD2 dbg) x = Ok u /\ c_array (class MD2 dbg) y = Ok u /\
  equal MD2 dbg x y = Ok false.
Proof.
  destruct (pair_of_more 16 S.md2 ltac:(lia) md2_size) as (m & m' & Hm & Hm' & Hne & E). destruct (strings_in 16 m Hm) as [Lm Bm].
  assert (bytes_ok m' /\ (length m' = 16 \/ m' = [])) as [Bm' Lm'].
  { destruct Hm' as [Hm'| ->]; [destruct (strings_in 16 m' Hm'); auto|split; [constructor|right; reflexivity]]. }
  assert (span_ok m /\ span_ok m') as [Sm Sm'].
  { change (2 ^ 64)%N with 18446744073709551616%N in *. split; (split; [assumption|]); change (2 ^ 64)%N with 18446744073709551616%N; [lia|destruct Lm' as [L| ->]; [lia|cbn; lia]]. }
  destruct (done_hashed dbg m Sm) as [H1 H2]. destruct (done_hashed dbg m' Sm') as [H3 H4].
  exists m, m', (Md2.done m), (Md2.done m'), (S.md2 m). do 7 (split; [assumption|]). split; [rewrite E; assumption|].
  apply equal_view; [exact Bm|exact Bm'|]. now apply view_neq.
Qed.
