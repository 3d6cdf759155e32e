(** SHA-3, SHAKE and cSHAKE never give the same blocks to the permutation. *)
From Coq Require Import List NArith ZArith Arith Bool Lia.
From Verif.Base Require Import Res CWord Double.
From Verif.Spec Require Import Words Merkle Client ObjClient Log2 Sp800185 CShakeArgs Domain.
From Verif.Spec Require Keccak.
From Verif.Model Require Import Buffer Stream Api ObjApi Library Chaining.
From Verif.Model Require Keccak CShake.
From Verif.Proof Require Import Words Streaming Blocks Api Class KeccakF Encode Padding Collide.
From Verif.Proof Require Keccak CShake.
Import ListNotations.
Local Open Scope N_scope.

(** ** the padding of the sponge *)

Lemma ones_inj {A} (t f : A) (x y : list A) a b : t <> f ->
  x ++ [t] ++ repeat f a = y ++ [t] ++ repeat f b -> x = y.
Proof.
  intros Htf E. assert (rev (x ++ [t] ++ repeat f a) = rev (y ++ [t] ++ repeat f b)) as G by now rewrite E.
  rewrite !rev_app_distr in G. cbn [rev app] in G.
  assert (forall n, rev (repeat f n) = repeat f n) as R.
  { induction n as [|n IH]; [reflexivity|]. cbn [repeat rev]. rewrite IH. clear. induction n as [|n IH]; [reflexivity|]. cbn [repeat app]. now rewrite IH. }
  rewrite !R in G. rewrite <- !app_assoc in G. cbn [app] in G.
  assert (rev x = rev y) as H. { clear -G Htf. revert b G. induction a as [|a IH]; intros [|b] G; cbn [repeat app] in G; try congruence. injection G as G. now apply (IH b). }
  apply (f_equal (@rev A)) in H. now rewrite !rev_involutive in H.
Qed.
Lemma pad101_inj r x y : x ++ Spec.Keccak.pad101 r (length x) = y ++ Spec.Keccak.pad101 r (length y) -> x = y.
Proof.
  unfold Spec.Keccak.pad101. rewrite !app_assoc. intros E. apply app_inj_tail in E as [E _]. rewrite <- !app_assoc in E.
  apply (ones_inj true false x y _ _) in E; [exact E|discriminate].
Qed.
Lemma bits_inj x y : bytes_ok x -> bytes_ok y -> Spec.Keccak.bits_of x = Spec.Keccak.bits_of y -> x = y.
Proof. intros Hx Hy E. now rewrite <- (Keccak.bytes_of_bits x), <- (Keccak.bytes_of_bits y), E. Qed.

(** ** inputs of the three kinds *)

(** the byte string, and the two or four bits after it *)
Definition body (rate : nat) (s : source) (m : list N) : list N :=
  match s with
  | FromCShake name custom => if is_nil name && is_nil custom then m else cshake_stream rate name custom m
  | _ => m
  end.
Definition suffix (s : source) : Spec.Keccak.bits :=
  match s with
  | FromSha3 => [false; true]
  | FromShake => [true; true; true; true]
  | FromCShake name custom => if is_nil name && is_nil custom then [true; true; true; true] else [false; false]
  end.
Lemma input_eq rate s m : input rate s m = Spec.Keccak.bits_of (body rate s m) ++ suffix s.
Proof. destruct s as [| |n c]; try reflexivity. unfold input, body, suffix. destruct (is_nil n && is_nil c); reflexivity. Qed.

Lemma suffix_first s1 s2 (x y : Spec.Keccak.bits) : x ++ suffix s1 = y ++ suffix s2 -> suffix s1 = suffix s2.
Proof.
  intros E. apply (f_equal (fun l => firstn 2 (rev l))) in E. rewrite !rev_app_distr in E.
  assert (forall s, suffix s = [false; true] \/ suffix s = [true; true; true; true] \/ suffix s = [false; false]) as C.
  { intros [| |n c]; cbn [suffix]; auto. destruct (is_nil n && is_nil c); auto. }
  destruct (C s1) as [E1 | [E1 | E1]], (C s2) as [E2 | [E2 | E2]]; rewrite E1, E2 in E |- *; try reflexivity; cbn in E; discriminate.
Qed.

Lemma nil_nil (n c : list N) : is_nil n && is_nil c = true -> n = [] /\ c = [].
Proof. destruct n, c; cbn; intros; try discriminate; auto. Qed.
Lemma function_custom n c : is_nil n && is_nil c = false -> function_of (FromCShake n c) = FromCShake n c.
Proof. destruct n, c; cbn; intros; try discriminate; auto. Qed.

Lemma input_inj rate s1 s2 m1 m2 : (0 < rate <= 200)%nat -> proper s1 -> proper s2 ->
  bytes_ok (body rate s1 m1) -> bytes_ok (body rate s2 m2) -> input rate s1 m1 = input rate s2 m2 ->
  function_of s1 = function_of s2 /\ m1 = m2.
Proof.
  intros Hr P1 P2 B1 B2 E. rewrite !input_eq in E. pose proof (suffix_first _ _ _ _ E) as Es. rewrite Es in E.
  apply app_inv_tail in E. apply bits_inj in E; [|assumption..].
  destruct s1 as [| |n c], s2 as [| |n' c']; cbn [suffix body] in *; try discriminate; auto.
  - destruct (is_nil n' && is_nil c'); discriminate.
  - destruct (is_nil n' && is_nil c') eqn:En; [|discriminate]. apply nil_nil in En as [-> ->]. auto.
  - destruct (is_nil n && is_nil c); discriminate.
  - destruct (is_nil n && is_nil c) eqn:En; [|discriminate]. apply nil_nil in En as [-> ->]. auto.
  - destruct (is_nil n && is_nil c) eqn:En, (is_nil n' && is_nil c') eqn:En'; try discriminate.
    + apply nil_nil in En as [-> ->]. apply nil_nil in En' as [-> ->]. auto.
    + destruct P1 as (_ & _ & Hn & Hc), P2 as (_ & _ & Hn' & Hc').
      destruct (CShake.cshake_stream_inj rate n c m1 n' c' m2 Hr Hn Hn' Hc Hc' E) as (-> & -> & ->). auto.
Qed.

(** the code's suffix byte *)
Definition suffix_byte (s : source) : N :=
  match s with
  | FromSha3 => 0x06
  | FromShake => 0x1F
  | FromCShake name custom => if is_nil name && is_nil custom then 0x1F else 0x04
  end.
Lemma suffix_facts s : (length (suffix s) <= 5)%nat /\
  Spec.Keccak.byte_bits (suffix_byte s) = suffix s ++ [true] ++ repeat false (7 - length (suffix s)) /\ suffix_byte s < 128.
Proof.
  assert (forall b : bool, (length (if b then [true; true; true; true] else [false; false]) <= 5)%nat /\
    Spec.Keccak.byte_bits (if b then 0x1F else 0x04) = (if b then [true; true; true; true] else [false; false]) ++ [true] ++ repeat false (7 - length (if b then [true; true; true; true] else [false; false])) /\ (if b then 0x1F else 0x04) < 128) as C
    by (intros []; (split; [cbn; lia|]; split; reflexivity)).
  destruct s as [| |n c]; cbn [suffix suffix_byte]; [|exact (C true)|exact (C (is_nil n && is_nil c))].
  split; [cbn; lia|]. split; reflexivity.
Qed.

Section Rate.
  Variable q : nat.
  Hypothesis Hq : (0 < q)%nat.
  Hypothesis Hq25 : (q <= 25)%nat.
  Notation R := (8 * q)%nat.

  Lemma bits_padded s m : Spec.Keccak.bits_of m ++ suffix s ++ Spec.Keccak.pad101 (8 * R) (length (Spec.Keccak.bits_of m ++ suffix s)) =
    Spec.Keccak.bits_of (m ++ Keccak.padding q (suffix_byte s) m).
  Proof. destruct (suffix_facts s) as (S1 & S2 & S3). exact (Keccak.padding_bits q (suffix_byte s) Hq Hq25 (suffix s) S1 S2 S3 m). Qed.
  Lemma pad_ok s m : aligned R (m ++ Keccak.padding q (suffix_byte s) m) /\ bytes_ok (Keccak.padding q (suffix_byte s) m).
  Proof.
    destruct (suffix_facts s) as (S1 & S2 & S3). split.
    - exact (Keccak.padded_aligned q (suffix_byte s) Hq Hq25 (suffix s) S1 S3 m).
    - exact (Keccak.padding_bytes q (suffix_byte s) Hq Hq25 (suffix s) S1 S3 m).
  Qed.

  Lemma body_bytes s m : proper s -> bytes_ok m -> bytes_ok (body R s m).
  Proof.
    destruct s as [| |n c]; auto. intros (Hn & Hc & Ln & Lc) Hm. unfold body. destruct (is_nil n && is_nil c); auto.
    unfold cshake_stream, bytepad. assert (N.of_nat R < 2 ^ 2040).
    { apply N.le_lt_trans with 200; [lia|]. apply (N.lt_le_trans _ (2 ^ 8)); [reflexivity|]. apply N.pow_le_mono_r; [discriminate|]. discriminate. }
    rewrite !bytes_ok_app. repeat split; auto.
    - now apply left_encode_bytes.
    - unfold encode_string. apply bytes_ok_app. split; [now apply left_encode_bytes|exact Hn].
    - unfold encode_string. apply bytes_ok_app. split; [now apply left_encode_bytes|exact Hc].
    - apply bytes_ok_repeat. reflexivity.
  Qed.

  (** the blocks as the code forms them *)
  Lemma fed_bytes s m : proper s -> bytes_ok m ->
    fed R s m = pieces R (body R s m ++ Keccak.padding q (suffix_byte s) (body R s m)).
  Proof.
    intros Hs Hm. pose proof (body_bytes s m Hs Hm) as Hb. destruct (suffix_facts s) as (S1 & S2 & S3).
    destruct (pad_ok s (body R s m)) as [Ha Hp].
    unfold fed. rewrite input_eq. rewrite <- app_assoc. rewrite bits_padded.
    rewrite (Keccak.pieces_bits R) by (first [lia | assumption]).
    rewrite map_map. rewrite <- (map_id (pieces R _)) at 2. apply map_ext_in. intros b Hin.
    apply Keccak.bytes_of_bits.
    assert (Forall bytes_ok (pieces R (body R s m ++ Keccak.padding q (suffix_byte s) (body R s m)))) as F.
    { apply pieces_bytes; [lia|exact Ha|]. apply bytes_ok_app. auto. }
    rewrite Forall_forall in F. now apply F.
  Qed.

  Theorem fed_inj s1 s2 m1 m2 : proper s1 -> proper s2 -> bytes_ok m1 -> bytes_ok m2 ->
    fed R s1 m1 = fed R s2 m2 -> function_of s1 = function_of s2 /\ m1 = m2.
  Proof.
    intros P1 P2 H1 H2 E. pose proof (body_bytes s1 m1 P1 H1). pose proof (body_bytes s2 m2 P2 H2).
    apply (input_inj R); auto; [lia|]. apply (pad101_inj (8 * R)). rewrite !input_eq, <- !app_assoc.
    rewrite !bits_padded.
    f_equal. rewrite !fed_bytes in E by assumption. apply (f_equal (@concat N)) in E.
    rewrite !concat_pieces in E by (first [lia | apply pad_ok]). exact E.
  Qed.

  (** ** the code *)
  Variable dbg : bool.
  Definition zero_blocks (d : nat) : list (list N) := repeat (repeat 0 R) ((d - 1) / R).

  Lemma zero_step l : Keccak.sok l -> Keccak.step l (repeat 0 R) = keccak_f l.
  Proof.
    intros Hl. pose proof (Keccak.zero_block q 0x06 dbg Hq Hq25 [] (Nat.le_0_l 5) eq_refl (Model.Keccak.mkSt l [] 0) Hl) as Z.
    assert (aligned R (repeat 0 R)) as Ha by (unfold aligned; rewrite repeat_length; apply Nat.mod_same; lia).
    destruct (Keccak.impl_ok q dbg Hq Hq25 (repeat 0 R) (Model.Keccak.mkSt l [] 0) Hl) as [E _]; [apply bytes_ok_repeat; reflexivity|exact Ha|].
    rewrite E in Z. apply (f_equal (fun r => match r with Ok s => Model.Keccak.k_state s | _ => [] end)) in Z.
    cbn [Model.Keccak.k_state Keccak.run] in Z. unfold chain in Z.
    rewrite (pieces_one R) in Z by (first [lia | apply repeat_length]). exact Z.
  Qed.

  Lemma state_fed s d m o : proper s -> bytes_ok m -> o = Keccak.done q (suffix_byte s) dbg d (body R s m) ->
    foldM (Model.Keccak.compress R) (fed R s m ++ zero_blocks d) (repeat 0 25) = Ok (Model.Keccak.k_state (snd o)).
  Proof.
    intros Hs Hm ->. destruct (suffix_facts s) as (S1 & S2 & S3). pose proof (body_bytes s m Hs Hm) as Hb.
    rewrite (Keccak.done_squeezed q (suffix_byte s) dbg Hq Hq25 (suffix s) S1 S2 S3 d _ Hb).
    rewrite fed_bytes by assumption. set (p := body R s m ++ _).
    destruct (pad_ok s (body R s m)) as [Ha Hp0].
    assert (bytes_ok p) as Hp by (apply bytes_ok_app; split; [exact Hb|exact Hp0]).
    assert (forall l, Forall (fun b => length b = R /\ bytes_ok b) l -> forall h, Keccak.sok h ->
              foldM (Model.Keccak.compress R) l h = Ok (fold_left Keccak.step l h) /\ Keccak.sok (fold_left Keccak.step l h)) as F.
    { induction 1 as [|b l [Hl Hbb] _ IH]; intros h Hh; cbn [foldM fold_left]; [auto|].
      destruct (Keccak.compress_ok q Hq Hq25 b [] h Hh Hl Hbb) as [E Hi]. rewrite app_nil_r in E. rewrite E, bind_ok. now apply IH. }
    assert (Forall (fun b => length b = R /\ bytes_ok b) (pieces R p)) as G1
      by (apply Forall_and; [apply pieces_all|apply pieces_bytes]; auto; lia).
    assert (Forall (fun b => length b = R /\ bytes_ok b) (zero_blocks d)) as G2.
    { apply Forall_forall. intros b Hin. apply repeat_spec in Hin. subst b. split; [apply repeat_length|apply bytes_ok_repeat; reflexivity]. }
    assert (Keccak.sok (repeat 0 25)) as H0 by (apply (Keccak.inv0 0)).
    destruct (F (pieces R p) G1 (repeat 0 25) H0) as [_ H1].
    destruct (F (pieces R p ++ zero_blocks d)) with (h := repeat 0 25) as [E _]; [apply Forall_app; auto|exact H0|].
    rewrite E. f_equal. rewrite fold_left_app. unfold chain. generalize dependent (fold_left Keccak.step (pieces R p) (repeat 0 25)).
    intros h Hh. unfold zero_blocks. clear -Hq Hq25 dbg Hh.
    revert h Hh. induction ((d - 1) / R)%nat as [|k IH]; intros h Hh; [reflexivity|].
    cbn [repeat fold_left]. rewrite zero_step by exact Hh. rewrite Keccak.iter_inside. apply IH. now apply Keccak.sok_f.
  Qed.

  Theorem keccak_fed s d ds x : proper s -> Forall span_ok ds -> (body R s (concat ds) = concat ds) ->
    digested (Model.Keccak.cls R (suffix_byte s) dbg d) ds x ->
    foldM (Model.Keccak.compress R) (fed R s (concat ds) ++ zero_blocks d) (repeat 0 25) = Ok (Model.Keccak.k_state (snd x)).
  Proof.
    intros Hs Hds Eb Hx. destruct (suffix_facts s) as (S1 & S2 & S3).
    pose proof (digested_done (Keccak.core_implements q (suffix_byte s) dbg Hq Hq25 (suffix s) S1 S2 S3 d) ds x Hds I Hx) as ->.
    apply state_fed; [exact Hs|now apply concat_bytes|]. now rewrite Eb.
  Qed.
End Rate.

(** cSHAKE objects *)
Section CShakeObjects.
  Variable q : nat.
  Hypothesis Hq : (0 < q)%nat.
  Hypothesis Hq25 : (q <= 25)%nat.
  Variables (log2 : N -> N) (dbg : bool) (P : N).
  Hypothesis Hlog : log2_accurate log2.
  Notation R := (8 * q)%nat.
  Hypothesis HP : P = N.of_nat R.
  Notation C := (Model.CShake.cls log2 R 0x1F 0x04 P dbg).
  Notation absS := (fun d => absorb R R (Keccak.run q) (Keccak.s0 d)).
  Notation crel := (CShake.crel R absS (Keccak.done q 0x1F dbg) absS (Keccak.done q 0x04 dbg)).

  Lemma implS d : Implements (Model.Keccak.cls R 0x1F dbg d) (Keccak.hash q (suffix FromShake) d) (fun _ => True) (absS d) (Keccak.done q 0x1F dbg d).
  Proof. destruct (suffix_facts FromShake) as (S1 & S2 & S3). exact (Keccak.core_implements q 0x1F dbg Hq Hq25 _ S1 S2 S3 d). Qed.
  Lemma implK d : Implements (Model.Keccak.cls R 0x04 dbg d) (Keccak.hash q (suffix (FromCShake [0] [])) d) (fun _ => True) (absS d) (Keccak.done q 0x04 dbg d).
  Proof. destruct (suffix_facts (FromCShake [0] [])) as (S1 & S2 & S3). exact (Keccak.core_implements q 0x04 dbg Hq Hq25 _ S1 S2 S3 d). Qed.

  Lemma R_pos : (0 < R)%nat. Proof. lia. Qed.
  Lemma R_200 : (R <= 200)%nat. Proof. lia. Qed.

  Lemma feed_all a : forall ds m o o', Forall span_ok ds -> crel a m false o ->
    foldM (oc_feed C) ds o = Ok o' -> crel a (m ++ concat ds) false o'.
  Proof.
    induction ds as [|d ds IH]; intros m o o' Hds Ro E.
    - cbn [foldM] in E. injection E as <-. cbn [concat]. now rewrite app_nil_r.
    - apply Forall_cons_iff in Hds as [Hd Hds]. cbn [foldM] in E.
      destruct (CShake.add_ok dbg R 0x1F 0x04 P R_pos R_200 HP _ _ _ _ _ _ implS implK a m d o Ro Hd) as (o1 & E1 & R1).
      cbn [oc_feed Model.CShake.cls] in E. rewrite E1, bind_ok in E. cbn [concat]. rewrite app_assoc.
      exact (IH _ _ _ Hds R1 E).
  Qed.

  Lemma short_proper n c : short n -> short c -> proper (FromCShake n c).
  Proof.
    intros [Hn Ln] [Hc Lc]. assert (forall x, x <= 2 ^ 56 - 2 ^ 8 -> x < 2 ^ 2040) as G.
    { intros x Hx. apply N.le_lt_trans with (2 ^ 56 - 2 ^ 8); [exact Hx|]. apply N.lt_le_trans with (2 ^ 56); [reflexivity|].
      apply N.pow_le_mono_r; discriminate. }
    repeat split; auto.
  Qed.

  Theorem cshake_fed l n c ds x : ok_cargs (l, n, c) -> Forall span_ok ds -> odigested C (l, n, c) ds x ->
    exists h, selected_state x = Some h /\
      foldM (Model.Keccak.compress R) (fed R (FromCShake n c) (concat ds) ++ zero_blocks q (Z.to_nat l)) (repeat 0 25) = Ok h.
  Proof.
    intros Ha Hds (x0 & x1 & E0 & E1 & E2). pose proof Ha as (Hl & Hn & Hc).
    destruct (CShake.construct_ok log2 dbg Hlog R 0x1F 0x04 P R_pos R_200 HP _ _ _ _ _ _ implS implK l n c Ha) as (o & Eo & Ro).
    cbn [oc_construct Model.CShake.cls] in E0. rewrite Eo in E0. injection E0 as <-.
    pose proof (feed_all _ _ _ _ _ Hds Ro E1) as R1. cbn [app] in R1.
    destruct (CShake.fin_ok dbg R 0x1F 0x04 P R_pos R_200 HP _ _ _ _ _ _ implS implK _ _ _ R1) as (o2 & Eo2 & R2).
    cbn [oc_finalize Model.CShake.cls] in E2. rewrite Eo2 in E2. injection E2 as <-.
    destruct R2 as (_ & Hm & Hcu & Hp).
    pose proof (fun o => state_fed q Hq Hq25 dbg (FromCShake n c) (Z.to_nat l) (concat ds) o (short_proper n c Hn Hc) Hm) as F.
    unfold selected_state. rewrite Hcu. unfold customized. unfold suffix_byte, body in F.
    destruct (is_nil n && is_nil c); cbn [negb]; rewrite Hp; cbn [option_map]; eexists; (split; [reflexivity|]); now apply F.
  Qed.
End CShakeObjects.

(** by class name *)
Theorem class_fed (a : alg) R s d dbg ds x : sponge_parameters a = Some (R, s, d) -> Forall span_ok ds -> digested (class a dbg) ds x ->
  exists h, sponge_state a dbg x = Some h /\
    foldM (Model.Keccak.compress R) (fed R s (concat ds) ++ repeat (repeat 0 R) ((d - 1) / R)) (repeat 0 25) = Ok h.
Proof.
  destruct a; cbn [sponge_parameters]; intros E; try discriminate E; injection E as <- <- <-; intros Hds Hx; eexists; (split; [reflexivity|]).
  - exact (keccak_fed 18 ltac:(lia) ltac:(lia) dbg FromSha3 28 ds x I Hds eq_refl Hx).
  - exact (keccak_fed 17 ltac:(lia) ltac:(lia) dbg FromSha3 32 ds x I Hds eq_refl Hx).
  - exact (keccak_fed 13 ltac:(lia) ltac:(lia) dbg FromSha3 48 ds x I Hds eq_refl Hx).
  - exact (keccak_fed 9 ltac:(lia) ltac:(lia) dbg FromSha3 64 ds x I Hds eq_refl Hx).
  - exact (keccak_fed 21 ltac:(lia) ltac:(lia) dbg FromShake digestLength ds x I Hds eq_refl Hx).
  - exact (keccak_fed 17 ltac:(lia) ltac:(lia) dbg FromShake digestLength ds x I Hds eq_refl Hx).
Qed.
Theorem cshake128_fed log2 dbg l n c ds x : log2_accurate log2 -> ok_cargs (l, n, c) -> Forall span_ok ds ->
  odigested (Model.CShake.cls128 log2 dbg) (l, n, c) ds x -> exists h, selected_state x = Some h /\
    foldM (Model.Keccak.compress 168) (fed 168 (FromCShake n c) (concat ds) ++ repeat (repeat 0 168%nat) ((Z.to_nat l - 1) / 168)) (repeat 0 25) = Ok h.
Proof. intros Hlog. exact (cshake_fed 21 ltac:(lia) ltac:(lia) log2 dbg _ Hlog eq_refl l n c ds x). Qed.
Theorem cshake256_fed log2 dbg l n c ds x : log2_accurate log2 -> ok_cargs (l, n, c) -> Forall span_ok ds ->
  odigested (Model.CShake.cls256 log2 dbg) (l, n, c) ds x -> exists h, selected_state x = Some h /\
    foldM (Model.Keccak.compress 136) (fed 136 (FromCShake n c) (concat ds) ++ repeat (repeat 0 136%nat) ((Z.to_nat l - 1) / 136)) (repeat 0 25) = Ok h.
Proof. intros Hlog. exact (cshake_fed 17 ltac:(lia) ltac:(lia) log2 dbg _ Hlog eq_refl l n c ds x). Qed.

(** after reset() a customized object gives the blocks of any other name and customization to whoever chooses the message *)
Lemma stream_span R n c m : (R <= 200)%nat -> (0 < R)%nat -> short n -> short c -> bytes_ok m -> N.of_nat (length m) < 2 ^ 62 ->
  span_ok (cshake_stream R n c m).
Proof.
  intros HR HR0 Hn Hc Hm Lm.
  assert (N.of_nat R <= 2 ^ 56 - 2 ^ 8) as HRs by (change (2 ^ 56 - 2 ^ 8) with 72057594037927680; lia).
  pose proof (CShake.short_len n Hn) as Ln. pose proof (CShake.short_len c Hc) as Lc.
  pose proof (left_encode_length _ (max_2040 _ HRs)) as L1. pose proof (left_encode_bytes _ (max_2040 _ HRs)) as B1.
  assert (forall s, short s -> (length (encode_string s) <= length s + 256)%nat /\ bytes_ok (encode_string s)) as G.
  { intros s [Hs Ls]. unfold encode_string. rewrite app_length. pose proof (left_encode_length _ (max_2040 _ Ls)). split; [lia|].
    apply bytes_ok_app. split; [now apply left_encode_bytes, max_2040|exact Hs]. }
  destruct (G n Hn) as [E1 B2]. destruct (G c Hc) as [E2 B3].
  unfold cshake_stream, bytepad. split.
  - rewrite !bytes_ok_app. repeat split; auto. apply bytes_ok_repeat. reflexivity.
  - rewrite !app_length, repeat_length. match goal with |- context [((?a - ?b) mod ?c)%nat] => pose proof (Nat.mod_upper_bound (a - b) c) as Hz; set (z := ((a - b) mod c)%nat) in * end.
    change (2 ^ 64) with 18446744073709551616. change (2 ^ 62) with 4611686018427387904 in Lm. change (2 ^ 53) with 9007199254740992 in Ln, Lc. lia.
Qed.
Theorem cshake128_reset_domain log2 dbg l n c n' c' x m : log2_accurate log2 -> ok_cargs (l, n', c') -> customized (l, n', c') = true ->
  span_ok x -> short n -> short c -> is_nil n && is_nil c = false -> bytes_ok m -> N.of_nat (length m) < 2 ^ 62 ->
  exists st, oexec (Model.CShake.cls128 log2 dbg) [Construct 0 (l, n', c'); Feed 0 x; Rst 0; Feed 0 (cshake_stream 168 n c m); Fin 0; Vec 0] (fun _ => None) =
    Ok ([OBytes (cshake128 (l, n, c) m)], st).
Proof.
  intros Hlog Ha Hcu Hx Hn Hc Hne Hm Lm.
  destruct (CShake.cshake128_reset_drops log2 dbg (l, n', c') x (cshake_stream 168 n c m) Hlog Ha Hcu Hx) as [st E]; [apply stream_span; auto; lia|].
  exists st. rewrite E. cbn [fst]. unfold cshake128, Sp800185.cshake128. rewrite Hne. reflexivity.
Qed.
Theorem cshake256_reset_domain log2 dbg l n c n' c' x m : log2_accurate log2 -> ok_cargs (l, n', c') -> customized (l, n', c') = true ->
  span_ok x -> short n -> short c -> is_nil n && is_nil c = false -> bytes_ok m -> N.of_nat (length m) < 2 ^ 62 ->
  exists st, oexec (Model.CShake.cls256 log2 dbg) [Construct 0 (l, n', c'); Feed 0 x; Rst 0; Feed 0 (cshake_stream 136 n c m); Fin 0; Vec 0] (fun _ => None) =
    Ok ([OBytes (cshake256 (l, n, c) m)], st).
Proof.
  intros Hlog Ha Hcu Hx Hn Hc Hne Hm Lm.
  destruct (CShake.cshake256_reset_drops log2 dbg (l, n', c') x (cshake_stream 136 n c m) Hlog Ha Hcu Hx) as [st E]; [apply stream_span; auto; lia|].
  exists st. rewrite E. cbn [fst]. unfold cshake256, Sp800185.cshake256. rewrite Hne. reflexivity.
Qed.
