(** Sponge objects that compare equal: the permutation is one to one, so that the inputs agree or collide in the inner part. *)
From Coq Require Import List NArith ZArith Arith Bool Lia.
From Verif.Base Require Import Res CWord.
From Verif.Spec Require Import Words Merkle Client Legal Sp800185 CShakeArgs Log2 Inner.
From Verif.Model Require Import Buffer Stream Api ObjApi Library ObjEquality.
From Verif.Spec Require Keccak.
From Verif.Model Require Keccak CShake TupleHash.
From Verif.Proof Require Import Words Streaming Blocks Rounds Api Class Post KeccakF KeccakPerm.
From Verif.Proof Require Import Keccak KeccakOut Equality SpongeEq SpongeNeq Collide.
From Verif.Spec Require Import Domain.
From Verif.Model Require Import Chaining.
From Verif.Proof Require Domain Extension Padding Pigeonhole.
Import ListNotations.
Local Open Scope N_scope.
Module M := Verif.Model.Keccak.

Lemma aligned_tail B x y : (0 < B)%nat -> aligned B x -> aligned B (x ++ y) -> aligned B y.
Proof.
  unfold aligned. intros HB Hx H. rewrite app_length in H. rewrite Nat.add_mod in H by lia. rewrite Hx in H. cbn [Nat.add] in H. now rewrite Nat.mod_mod in H by lia.
Qed.
Lemma aligned_full B n : (0 < B)%nat -> (n mod B = 0)%nat -> (0 < n)%nat -> (B <= n)%nat.
Proof. intros HB H Hn. destruct (Nat.lt_ge_cases n B) as [L|L]; [|exact L]. rewrite Nat.mod_small in H by exact L. lia. Qed.

Section Rate.
  Variable q : nat.
  Hypothesis Hq : (0 < q)%nat.
  Hypothesis Hq25 : (q <= 25)%nat.
  Notation R := (8 * q)%nat.
  Notation zeros := (repeat 0 25).
  Definition block (b : list N) : Prop := length b = R /\ bytes_ok b.

  Lemma xorw_nth w l i : (i < 25)%nat -> nth i (xorw w l) 0 = N.lxor (nth i l 0) (nth i w 0).
  Proof using. intros Hi. unfold xorw. now rewrite nth_seq_map by exact Hi. Qed.

  Lemma step_meets s t a b : sok s -> sok t -> block a -> block b -> step s a = step t b ->
    xorw (le_words 8 a) s = xorw (le_words 8 b) t.
  Proof using Hq Hq25.
    intros Hs Ht [La Ba] [Lb Bb] E. apply keccak_words_inj; [apply sok_xorw; [now apply (ws_bnd q)|exact Hs]|apply sok_xorw; [now apply (ws_bnd q)|exact Ht]|exact E].
  Qed.
  Lemma step_inner s t a b : sok s -> sok t -> block a -> block b -> step s a = step t b -> skipn q s = skipn q t.
  Proof using Hq Hq25.
    intros Hs Ht Ha Hb E. pose proof (step_meets s t a b Hs Ht Ha Hb E) as X. destruct Hs as [Ls _], Ht as [Lt _].
    apply (nth_ext _ _ 0 0); [now rewrite !skipn_length, Ls, Lt|]. intros i Hi. rewrite skipn_length, Ls in Hi.
    assert (forall l : list N, nth i (skipn q l) 0 = nth (q + i) l 0) as K.
    { intros l. rewrite <- (firstn_skipn q l) at 2. destruct (Nat.le_gt_cases (length l) q) as [H|H].
      - rewrite skipn_all2 by exact H. rewrite app_nil_r. rewrite !nth_overflow; [reflexivity| |cbn; lia]. rewrite firstn_length. lia.
      - rewrite app_nth2 by (rewrite firstn_length; lia). f_equal. rewrite firstn_length. lia. }
    rewrite !K. apply (f_equal (fun l => nth (q + i) l 0)) in X. rewrite !xorw_nth in X by lia.
    rewrite !(nth_overflow (le_words 8 _)) in X by (rewrite (ws_len q) by first [exact (proj1 Ha)|exact (proj1 Hb)|exact Hq|exact Hq25]; lia).
    now rewrite !N.lxor_0_r in X.
  Qed.
  Lemma step_state s t b : sok s -> sok t -> block b -> step s b = step t b -> s = t.
  Proof using Hq Hq25.
    intros Hs Ht Hb E. pose proof (step_meets s t b b Hs Ht Hb Hb E) as X. destruct Hs as [Ls _], Ht as [Lt _].
    apply (nth_ext _ _ 0 0); [congruence|]. intros i Hi. apply (f_equal (fun l => nth i l 0)) in X. rewrite !xorw_nth in X by lia.
    apply (f_equal (fun v => N.lxor v (nth i (le_words 8 b) 0))) in X. now rewrite !N.lxor_assoc, !N.lxor_nilpotent, !N.lxor_0_r in X.
  Qed.
  Lemma step_sok s b : sok s -> block b -> sok (step s b).
  Proof using Hq Hq25. intros Hs [Lb Bb]. apply sok_f, sok_xorw; [now apply (ws_bnd q)|exact Hs]. Qed.
  Lemma fold_sok l : Forall block l -> forall s, sok s -> sok (fold_left step l s).
  Proof using Hq Hq25. induction 1 as [|b l Hb _ IH]; intros s Hs; cbn [fold_left]; [exact Hs|]. apply IH. now apply step_sok. Qed.
  (** the same blocks behind different states *)
  Lemma fold_state l : Forall block l -> forall s t, sok s -> sok t -> fold_left step l s = fold_left step l t -> s = t.
  Proof using Hq Hq25.
    induction 1 as [|b l Hb _ IH]; intros s t Hs Ht E; cbn [fold_left] in E; [exact E|].
    apply (step_state s t b Hs Ht Hb). apply IH; [now apply step_sok|now apply step_sok|exact E].
  Qed.
  Lemma zeros_sok : sok zeros. Proof using. apply (inv0 0). Qed.

  (** ** bits *)
  Lemma absorbed_words l : Forall block l -> forall s, sok s ->
    fold_left (fun S b => Spec.Keccak.keccak_f (Spec.Keccak.xor_bits S (Spec.Keccak.bits_of b ++ repeat false (1600 - 8 * R)))) l (lane_bits s) = lane_bits (fold_left step l s).
  Proof using Hq Hq25.
    induction 1 as [|b l Hb _ IH]; intros s Hs; cbn [fold_left]; [reflexivity|].
    rewrite (step_bits q Hq Hq25 s b Hs (proj1 Hb) (proj2 Hb)). apply IH. now apply step_sok.
  Qed.
  Lemma absorbed_lanes l : Forall block l -> Spec.Inner.absorbed R l = lane_bits (fold_left step l zeros).
  Proof using Hq Hq25.
    intros Hl. rewrite <- absorbed_words by (assumption || apply zeros_sok). unfold Spec.Inner.absorbed.
    replace (lane_bits zeros) with (repeat false 1600) by reflexivity. reflexivity.
  Qed.
  Lemma lanes_skip s : inner R (lane_bits s) = lane_bits (skipn q s).
  Proof using.
    clear Hq Hq25. unfold inner. replace (8 * R)%nat with (64 * q)%nat by lia. revert s. induction q as [|k IH]; intros s; [reflexivity|].
    destruct s as [|w s]; [now rewrite skipn_nil|]. cbn [skipn]. unfold lane_bits. cbn [flat_map].
    replace (64 * S k)%nat with (length (word_bits w) + 64 * k)%nat by (rewrite word_bits_length; lia).
    rewrite skipn_app. rewrite skipn_all2 by lia. cbn [app].
    replace (length (word_bits w) + 64 * k - length (word_bits w))%nat with (64 * k)%nat by lia. apply IH.
  Qed.
  Lemma lane_bits_inj : forall s t, length s = length t -> Forall (bnd 64) s -> Forall (bnd 64) t -> lane_bits s = lane_bits t -> s = t.
  Proof using.
    clear Hq Hq25. intros s t L Bs Bt E. apply (nth_ext _ _ 0 0); [exact L|]. intros j Hj. apply N.bits_inj. intros i. destruct (N.lt_ge_cases i 64) as [H|H].
    - apply (f_equal (fun s => nth (64 * j + N.to_nat i) s false)) in E. rewrite !lane_bits_nth in E by lia. rewrite !tb, N2Nat.id in E. exact E.
    - rewrite (bnd_high 64 (nth j s 0)) by (try (apply Forall_nth_bnd); assumption).
      rewrite (bnd_high 64 (nth j t 0)) by (try (apply Forall_nth_bnd); assumption). reflexivity.
  Qed.

  (** ** equal states *)
  Lemma blocks_meet A B n : Forall block A -> Forall block B -> A <> [] -> B <> [] -> A <> B ->
    fold_left step (A ++ repeat (repeat 0 R) n) zeros = fold_left step (B ++ repeat (repeat 0 R) n) zeros ->
    inner_collision R (removelast A) (removelast B).
  Proof using Hq Hq25.
    intros HA HB NA NB Hne E. rewrite !fold_left_app in E.
    assert (Forall block (repeat (repeat 0 R) n)) as HZ.
    { apply Forall_forall. intros b Hin. apply repeat_spec in Hin. subst b. split; [apply repeat_length|apply bytes_ok_repeat; reflexivity]. }
    apply fold_state in E; [|exact HZ|apply fold_sok; [exact HA|apply zeros_sok]|apply fold_sok; [exact HB|apply zeros_sok]].
    rewrite (app_removelast_last [] NA) in HA, E, Hne. rewrite (app_removelast_last [] NB) in HB, E, Hne.
    set (A' := removelast A) in *. set (a := last A []) in *. set (B' := removelast B) in *. set (b := last B []) in *. clearbody A' a B' b. clear A B NA NB.
    apply Forall_app in HA as [HA Ha]. apply Forall_app in HB as [HB Hb]. apply Forall_inv in Ha. apply Forall_inv in Hb.
    rewrite !fold_left_app in E. cbn [fold_left] in E.
    pose proof (fold_sok A' HA zeros zeros_sok) as SA. pose proof (fold_sok B' HB zeros zeros_sok) as SB. split.
    - intros <-. apply Hne. f_equal. f_equal. apply (step_inj q 0 Hq Hq25 [] (Nat.le_0_l 5) eq_refl (fold_left step A' zeros)); try assumption; apply Ha || apply Hb.
    - rewrite !absorbed_lanes by assumption. rewrite !lanes_skip. f_equal. exact (step_inner _ _ a b SA SB Ha Hb E).
  Qed.

  Lemma foldM_blocks l : Forall block l -> forall h, sok h -> foldM (M.compress R) l h = Ok (fold_left step l h).
  Proof using Hq Hq25.
    induction 1 as [|b l [Hl Hb] _ IH]; intros h Hh; cbn [foldM fold_left]; [reflexivity|].
    destruct (compress_ok q Hq Hq25 b [] h Hh Hl Hb) as [E Hi]. rewrite app_nil_r in E. rewrite E, bind_ok. now apply IH.
  Qed.

  (** ** what objects were given *)
  Notation zs n := (repeat (repeat 0 R) n).
  Lemma zs_blocks n : Forall block (zs n).
  Proof using. apply Forall_forall. intros b Hin. apply repeat_spec in Hin. subst b. split; [apply repeat_length|apply bytes_ok_repeat; reflexivity]. Qed.
  Lemma aligned_blocks p : aligned R p -> bytes_ok p -> Forall block (pieces R p).
  Proof using Hq Hq25. intros Ha Hp. apply Forall_and; [apply pieces_all|apply pieces_bytes]; auto; lia. Qed.
  Lemma fed_blocks s m : proper s -> bytes_ok m -> Forall block (fed R s m) /\ fed R s m <> [].
  Proof using Hq Hq25.
    intros Hs Hm. rewrite (Domain.fed_bytes q Hq Hq25) by assumption. destruct (Domain.pad_ok q Hq Hq25 s (Domain.body R s m)) as [Ha Hp].
    pose proof (Domain.body_bytes q Hq Hq25 s m Hs Hm) as Hb. destruct (Domain.suffix_facts s) as (S1 & S2 & S3).
    split; [apply aligned_blocks; [exact Ha|now apply bytes_ok_app]|].
    intros E. apply (f_equal (@concat N)) in E. rewrite Padding.concat_pieces in E by (assumption || lia). apply (f_equal (@length N)) in E.
    rewrite app_length, (padding_length q _ Hq Hq25 (Domain.suffix s) S1 S3) in E. cbn [concat length] in E. lia.
  Qed.
  Lemma fed_meet s1 s2 m1 m2 n h : proper s1 -> proper s2 -> bytes_ok m1 -> bytes_ok m2 ->
    foldM (M.compress R) (fed R s1 m1 ++ zs n) zeros = Ok h -> foldM (M.compress R) (fed R s2 m2 ++ zs n) zeros = Ok h ->
    function_of s1 = function_of s2 /\ m1 = m2 \/ inner_collision R (removelast (fed R s1 m1)) (removelast (fed R s2 m2)).
  Proof using Hq Hq25.
    intros P1 P2 H1 H2 E1 E2. destruct (fed_blocks s1 m1 P1 H1) as [F1 N1]. destruct (fed_blocks s2 m2 P2 H2) as [F2 N2].
    destruct (list_eq_dec (list_eq_dec N.eq_dec) (fed R s1 m1) (fed R s2 m2)) as [E|Hne].
    - left. exact (Domain.fed_inj q Hq Hq25 s1 s2 m1 m2 P1 P2 H1 H2 E).
    - right. rewrite foldM_blocks in E1, E2; try apply zeros_sok; try (apply Forall_app; split; [assumption|apply zs_blocks]).
      apply (blocks_meet _ _ n F1 F2 N1 N2 Hne). congruence.
  Qed.
  Lemma fed_sok s m n h : proper s -> bytes_ok m -> foldM (M.compress R) (fed R s m ++ zs n) zeros = Ok h -> sok h.
  Proof using Hq Hq25.
    intros P1 H1 E1. destruct (fed_blocks s m P1 H1) as [F1 _]. assert (Forall block (fed R s m ++ zs n)) as F by (apply Forall_app; split; [assumption|apply zs_blocks]).
    rewrite foldM_blocks in E1 by (exact F || apply zeros_sok). injection E1 as <-. apply fold_sok; [exact F|apply zeros_sok].
  Qed.

  (** what precedes the message fills blocks *)
  Lemma body_front s : proper s -> exists f, aligned R f /\ bytes_ok f /\ forall m, Domain.body R s m = f ++ m.
  Proof using Hq Hq25.
    intros Hs. assert (aligned R []) as A0 by (apply Nat.mod_0_l; lia).
    destruct s as [| |n c]; [exists []; repeat split; assumption || constructor|exists []; repeat split; assumption || constructor|].
    unfold Domain.body. destruct (is_nil n && is_nil c) eqn:E; [exists []; repeat split; assumption || constructor|].
    exists (bytepad (encode_string n ++ encode_string c) R). split; [|split; [|intros m; reflexivity]].
    - unfold bytepad, aligned. set (z := left_encode _ ++ _). rewrite app_length, repeat_length. generalize (length z). intros k.
      rewrite Nat.add_mod by lia. rewrite Nat.mod_mod by lia. rewrite <- Nat.add_mod by lia.
      pose proof (Nat.div_mod k R ltac:(lia)) as D. pose proof (Nat.mod_upper_bound k R ltac:(lia)) as U.
      replace (k + (R - k mod R))%nat with ((k / R + 1) * R)%nat by (rewrite D at 2; lia). apply Nat.mod_mul. lia.
    - pose proof (Domain.body_bytes q Hq Hq25 (FromCShake n c) [] Hs (Forall_nil _)) as B. unfold Domain.body in B. rewrite E in B.
      unfold cshake_stream in B. now rewrite app_nil_r in B.
  Qed.

  (** a change within one block *)
  Lemma one_block s u b b' v n h : proper s -> bytes_ok u -> bytes_ok b -> bytes_ok b' -> bytes_ok v -> aligned R u ->
    length b = length b' -> (length b <= R)%nat ->
    foldM (M.compress R) (fed R s (u ++ b ++ v) ++ zs n) zeros = Ok h -> foldM (M.compress R) (fed R s (u ++ b' ++ v) ++ zs n) zeros = Ok h -> b = b'.
  Proof using Hq Hq25.
    intros Hs Bu Bb Bb' Bv Au Lb LR E1 E2. assert (0 < R)%nat as HR by lia. destruct (body_front s Hs) as (f & Af & Bf & Ef).
    assert (forall c, bytes_ok c -> bytes_ok (u ++ c ++ v)) as Bm by (intros c Hc; rewrite !bytes_ok_app; auto).
    set (w := v ++ Keccak.padding q (Domain.suffix_byte s) (f ++ u ++ b ++ v)).
    destruct (Domain.suffix_facts s) as (S1 & S2 & S3).
    assert (forall c, length c = length b -> Domain.body R s (u ++ c ++ v) ++ Keccak.padding q (Domain.suffix_byte s) (Domain.body R s (u ++ c ++ v)) = (f ++ u) ++ c ++ w) as FW.
    { intros c Lc. rewrite Ef. unfold w. rewrite !app_assoc. f_equal. unfold Keccak.padding, fillc. rewrite !app_length, Lc. reflexivity. }
    assert (bytes_ok w) as Bw by (apply bytes_ok_app; split; [exact Bv|]; exact (padding_bytes q _ Hq Hq25 (Domain.suffix s) S1 S3 _)).
    assert (aligned R (f ++ u)) as Afu by (apply aligned_app; [exact HR|assumption|assumption]).
    assert (aligned R (b ++ w)) as Abw.
    { pose proof (proj1 (Domain.pad_ok q Hq Hq25 s (Domain.body R s (u ++ b ++ v)))) as A. rewrite FW in A by reflexivity.
      exact (aligned_tail R (f ++ u) (b ++ w) HR Afu A). }
    assert (R <= length b + length w)%nat as Lw.
    { rewrite <- app_length. apply (aligned_full R); [exact HR|exact Abw|]. rewrite app_length. unfold w.
      rewrite app_length, (padding_length q _ Hq Hq25 (Domain.suffix s) S1 S3). clear. rewrite (Nat.add_comm 1), !Nat.add_assoc. apply Nat.lt_lt_add_l. apply Nat.lt_0_1. }
    set (w1 := firstn (R - length b) w). set (w2 := skipn (R - length b) w). assert (w = w1 ++ w2) as Ew by (symmetry; apply firstn_skipn).
    assert (length w1 = (R - length b)%nat) as L1 by (unfold w1; rewrite firstn_length; clearbody w; clear -Lw; lia).
    assert (bytes_ok w1 /\ bytes_ok w2) as [B1 B2] by (apply bytes_ok_app; rewrite <- Ew; exact Bw).
    assert (forall c, bytes_ok c -> length c = length b -> fed R s (u ++ c ++ v) = pieces R (f ++ u) ++ [c ++ w1] ++ pieces R w2) as FP.
    { intros c Hc Lc. rewrite (Domain.fed_bytes q Hq Hq25) by auto. rewrite FW by exact Lc. rewrite pieces_app by assumption. f_equal.
      rewrite Ew, app_assoc. rewrite pieces_cons; [reflexivity|exact HR|]. rewrite app_length, Lc, L1. clear -LR. lia. }
    rewrite FP in E1 by auto. rewrite FP in E2 by auto. rewrite <- !app_assoc in E1, E2.
    assert (aligned R w2) as A2.
    { rewrite Ew, app_assoc in Abw. refine (aligned_tail R (b ++ w1) w2 HR _ Abw). unfold aligned. rewrite app_length, L1.
      replace (length b + (R - length b))%nat with R by (clear -LR; lia). apply Nat.mod_same. clear -HR. lia. }
    assert (Forall block (pieces R (f ++ u))) as F0 by (apply aligned_blocks; [exact Afu|now apply bytes_ok_app]).
    assert (Forall block (pieces R w2 ++ zs n)) as F2 by (apply Forall_app; split; [now apply aligned_blocks|apply zs_blocks]).
    assert (forall c, bytes_ok c -> length c = length b -> block (c ++ w1)) as FB by (intros c Hc Lc; split; [rewrite app_length, Lc, L1; clear -LR; lia|now apply bytes_ok_app]).
    assert (forall c, bytes_ok c -> length c = length b -> Forall block (pieces R (f ++ u) ++ [c ++ w1] ++ pieces R w2 ++ zs n)) as FA.
    { intros c Hc Lc. apply Forall_app. split; [exact F0|]. apply Forall_app. split; [constructor; [now apply FB|constructor]|exact F2]. }
    rewrite foldM_blocks in E1 by (auto || apply zeros_sok). rewrite foldM_blocks in E2 by (auto || apply zeros_sok).
    assert (fold_left step (pieces R (f ++ u) ++ [b ++ w1] ++ pieces R w2 ++ zs n) zeros = fold_left step (pieces R (f ++ u) ++ [b' ++ w1] ++ pieces R w2 ++ zs n) zeros) as E by congruence.
    clear E1 E2. rewrite !fold_left_app in E. cbn [fold_left] in E. rewrite <- !fold_left_app in E.
    pose proof (fold_sok _ F0 zeros zeros_sok) as SF.
    apply fold_state in E; [|exact F2|apply step_sok; [exact SF|now apply FB]|apply step_sok; [exact SF|now apply FB]].
    apply (step_inj q 0 Hq Hq25 [] (Nat.le_0_l 5) eq_refl _ _ _ SF) in E; [|now apply FB|now apply FB|now apply FB|now apply FB].
    apply app_inv_tail in E. exact E.
  Qed.

  (** every inner collision makes states collide *)
  Lemma inner_words A B : Forall block A -> Forall block B -> inner R (Spec.Inner.absorbed R A) = inner R (Spec.Inner.absorbed R B) ->
    skipn q (fold_left step A zeros) = skipn q (fold_left step B zeros).
  Proof using Hq Hq25.
    intros FA FB E. rewrite !absorbed_lanes, !lanes_skip in E by assumption.
    destruct (fold_sok A FA zeros zeros_sok) as [LA BA]. destruct (fold_sok B FB zeros zeros_sok) as [LB BB].
    assert (forall n (l : list N), Forall (bnd 64) l -> Forall (bnd 64) (skipn n l)) as K.
    { induction n as [|n IH]; intros l Hl; [exact Hl|]. destruct Hl; [constructor|]. cbn [skipn]. now apply IH. }
    apply lane_bits_inj; [rewrite !skipn_length; congruence|now apply K|now apply K|exact E].
  Qed.
  Lemma skip_nth (k i : nat) (l : list N) : nth i (skipn k l) 0 = nth (k + i) l 0.
  Proof using.
    clear Hq Hq25. revert l. induction k as [|k IH]; intros l; [reflexivity|]. destruct l as [|x l]; [now destruct i|]. cbn [skipn Nat.add nth]. apply IH.
  Qed.
  Lemma steered s s' t : sok s -> sok s' -> block t -> skipn q s = skipn q s' -> exists t', block t' /\ step s t = step s' t'.
  Proof using Hq Hq25.
    intros [L1 B1] [L2 B2] [Lt Bt] E.
    set (ws := map (fun i => N.lxor (N.lxor (nth i (le_words 8 t) 0) (nth i s 0)) (nth i s' 0)) (seq 0 q)).
    assert (Forall (bnd 64) ws) as Bw.
    { apply Forall_map, Forall_forall. intros i _. apply bnd_lxor; [apply bnd_lxor|]; apply Forall_nth_bnd; try assumption. now apply (ws_bnd q). }
    assert (length ws = q) as Lw by (unfold ws; now rewrite map_length, seq_length).
    exists (flat_map (le_bytes 8) ws). split.
    - split; [rewrite (Class.flat_length _ 8), Lw by apply le_bytes_length; reflexivity|apply bytes_ok_flat_map, le_bytes_ok].
    - unfold step. f_equal. rewrite (Extension.le_back 8 ws q); [|lia|split; [exact Lw|exact Bw]].
      apply (nth_ext _ _ 0 0); [unfold xorw; now rewrite !map_length|]. intros i Hi. unfold xorw in Hi. rewrite map_length, seq_length in Hi.
      rewrite !xorw_nth by exact Hi. destruct (Nat.lt_ge_cases i q) as [H|H].
      + unfold ws. rewrite (nth_seq_map (fun i => N.lxor (N.lxor (nth i (le_words 8 t) 0) (nth i s 0)) (nth i s' 0)) i q H).
        rewrite (N.lxor_comm _ (nth i s' 0)), <- N.lxor_assoc, N.lxor_nilpotent, N.lxor_0_l. apply N.lxor_comm.
      + rewrite (nth_overflow ws) by lia. rewrite (nth_overflow (le_words 8 t)) by (rewrite (ws_len q); [exact H| | |exact Lt]; assumption).
        rewrite !N.lxor_0_r. apply (f_equal (fun l => nth (i - q) l 0)) in E. rewrite !skip_nth in E.
        replace (q + (i - q))%nat with i in E by lia. exact E.
  Qed.

  (** messages without anything before them *)
  Lemma fed_after s u t w : (forall m, Domain.body R s m = m) -> proper s -> aligned R u -> block t -> bytes_ok u -> bytes_ok w ->
    fed R s (u ++ t ++ w) = pieces R u ++ [t] ++ pieces R (w ++ Keccak.padding q (Domain.suffix_byte s) w).
  Proof using Hq Hq25.
    intros Eb Hs Au [Lt Bt] Bu Bw. assert (0 < R)%nat as HR by lia. rewrite (Domain.fed_bytes q Hq Hq25) by (try assumption; rewrite !bytes_ok_app; auto). rewrite !Eb.
    assert (Keccak.padding q (Domain.suffix_byte s) (u ++ t ++ w) = Keccak.padding q (Domain.suffix_byte s) w) as ->.
    { unfold Keccak.padding, fillc. rewrite !app_length, Lt. replace ((length u + (R + length w)) mod R)%nat with (length w mod R)%nat; [reflexivity|].
      unfold aligned in Au. rewrite (Nat.add_mod (length u)) by lia. rewrite Au. cbn [Nat.add]. rewrite Nat.mod_mod by lia.
      replace (R + length w)%nat with (length w + 1 * R)%nat by lia. now rewrite Nat.mod_add by lia. }
    rewrite <- !app_assoc. rewrite pieces_app by assumption. f_equal. rewrite pieces_cons by assumption. reflexivity.
  Qed.
  Lemma reached s dbg d u v t : (forall m, Domain.body R s m = m) -> proper s -> aligned R u -> aligned R v -> bytes_ok u -> bytes_ok v -> block t ->
    inner R (Spec.Inner.absorbed R (pieces R u)) = inner R (Spec.Inner.absorbed R (pieces R v)) ->
    exists t', block t' /\ forall w ds es x y, Forall span_ok ds -> Forall span_ok es -> concat ds = u ++ t ++ w -> concat es = v ++ t' ++ w ->
      digested (M.cls R (Domain.suffix_byte s) dbg d) ds x -> digested (M.cls R (Domain.suffix_byte s) dbg d) es y ->
      keccak_eq x y = Ok true /\ M.k_final (snd x) = M.k_final (snd y).
  Proof using Hq Hq25.
    intros Eb Hs Au Av Bu Bv Bt EI.
    pose proof (aligned_blocks u Au Bu) as FU. pose proof (aligned_blocks v Av Bv) as FV.
    destruct (steered _ _ t (fold_sok _ FU zeros zeros_sok) (fold_sok _ FV zeros zeros_sok) Bt (inner_words _ _ FU FV EI)) as (t' & Bt' & ES).
    exists t'. split; [exact Bt'|]. intros w ds es x y Hds Hes Cd Ce Hx Hy.
    assert (bytes_ok (concat ds) /\ bytes_ok (concat es)) as [Bd Be] by (split; now apply concat_bytes).
    assert (bytes_ok w) as Bw by (rewrite Cd, !bytes_ok_app in Bd; apply Bd).
    destruct (Domain.suffix_facts s) as (S1 & S2 & S3).
    pose proof (Domain.keccak_fed q Hq Hq25 dbg s d ds x Hs Hds (Eb _) Hx) as F1. pose proof (Domain.keccak_fed q Hq Hq25 dbg s d es y Hs Hes (Eb _) Hy) as F2.
    assert (M.k_state (snd x) = M.k_state (snd y)) as EK.
    { pose proof (fed_blocks s _ Hs Bd) as [G1 _]. pose proof (fed_blocks s _ Hs Be) as [G2 _].
      rewrite foldM_blocks in F1; [|apply Forall_app; split; [exact G1|apply zs_blocks]|apply zeros_sok].
      rewrite foldM_blocks in F2; [|apply Forall_app; split; [exact G2|apply zs_blocks]|apply zeros_sok].
      rewrite Cd, (fed_after s u t w) in F1 by assumption. rewrite Ce, (fed_after s v t' w) in F2 by assumption.
      apply Proof.Crc32.Ok_inj in F1, F2. rewrite <- F1, <- F2. rewrite !fold_left_app. cbn [fold_left]. now rewrite ES. }
    pose proof (digested_done (core_implements q (Domain.suffix_byte s) dbg Hq Hq25 (Domain.suffix s) S1 S2 S3 d) ds x Hds I Hx) as Ex.
    pose proof (digested_done (core_implements q (Domain.suffix_byte s) dbg Hq Hq25 (Domain.suffix s) S1 S2 S3 d) es y Hes I Hy) as Ey.
    pose proof (done_held q (Domain.suffix_byte s) dbg Hq Hq25 (Domain.suffix s) S1 S2 S3 d _ Bd) as H1.
    pose proof (done_held q (Domain.suffix_byte s) dbg Hq Hq25 (Domain.suffix s) S1 S2 S3 d _ Be) as H2.
    rewrite <- Ex in H1. rewrite <- Ey in H2. split; [|exact (held_eq q dbg d Hq Hq25 x y H1 H2 EK)].
    destruct H1 as ((K1 & _) & _), H2 as ((K2 & _) & _). destruct (eq_array_spec 25 (M.k_state (snd x)) (M.k_state (snd y)) K1 K2) as (b & E1 & E2).
    unfold keccak_eq. rewrite E1. f_equal. now apply E2.
  Qed.
End Rate.

(** ** The classes *)
Definition quarters (R : nat) : Prop := exists q, (0 < q)%nat /\ (q <= 25)%nat /\ R = (8 * q)%nat.
Lemma class_rate a R s d : sponge_parameters a = Some (R, s, d) -> quarters R /\ proper s /\ forall m, Domain.body R s m = m.
Proof.
  destruct a; cbn [sponge_parameters]; intros E; try discriminate E; injection E as <- <- <-; (split; [|split; [exact I|reflexivity]]).
  - exists 18%nat. lia.
  - exists 17%nat. lia.
  - exists 13%nat. lia.
  - exists 9%nat. lia.
  - exists 21%nat. lia.
  - exists 17%nat. lia.
Qed.
Lemma class_equal a R s d dbg x y h k : sponge_parameters a = Some (R, s, d) -> sponge_state a dbg x = Some h -> sponge_state a dbg y = Some k ->
  length h = 25%nat -> length k = 25%nat -> exists o, equal a dbg x y = Ok o /\ (o = true <-> h = k).
Proof.
  destruct a; cbn [sponge_parameters]; intros E; try discriminate E; clear E; cbn [sponge_state equal]; intros E1 E2; injection E1 as <-; injection E2 as <-;
    exact (eq_array_spec 25 (M.k_state (snd x)) (M.k_state (snd y))).
Qed.
Theorem class_meet a R s d dbg ds es x y : sponge_parameters a = Some (R, s, d) -> Forall span_ok ds -> Forall span_ok es ->
  digested (class a dbg) ds x -> digested (class a dbg) es y -> equal a dbg x y = Ok true ->
  concat ds = concat es \/ inner_collision R (removelast (fed R s (concat ds))) (removelast (fed R s (concat es))).
Proof.
  intros Ea Hds Hes Hx Hy E. destruct (Domain.class_fed a R s d dbg ds x Ea Hds Hx) as (h & E1 & F1). destruct (Domain.class_fed a R s d dbg es y Ea Hes Hy) as (k & E2 & F2).
  destruct (class_rate a R s d Ea) as ((q & Hq & Hq25 & ->) & Hs & _).
  pose proof (concat_bytes ds Hds) as Bd. pose proof (concat_bytes es Hes) as Be.
  pose proof (fed_sok q Hq Hq25 s _ _ h Hs Bd F1) as [L1 _]. pose proof (fed_sok q Hq Hq25 s _ _ k Hs Be F2) as [L2 _].
  destruct (class_equal a _ s d dbg x y h k Ea E1 E2 L1 L2) as (o & Eo & Ho). rewrite Eo in E. apply Proof.Crc32.Ok_inj in E. pose proof (proj1 Ho E) as <-.
  destruct (fed_meet q Hq Hq25 s s _ _ _ h Hs Hs Bd Be F1 F2) as [[_ G]|G]; auto.
Qed.
Theorem class_block a R s d dbg ds es x y u b b' v : sponge_parameters a = Some (R, s, d) -> Forall span_ok ds -> Forall span_ok es ->
  digested (class a dbg) ds x -> digested (class a dbg) es y -> concat ds = u ++ b ++ v -> concat es = u ++ b' ++ v ->
  (length u mod R = 0)%nat -> length b = length b' -> (length b <= R)%nat -> b <> b' -> equal a dbg x y = Ok false.
Proof.
  intros Ea Hds Hes Hx Hy Cd Ce Au Lb LR Hne. destruct (Domain.class_fed a R s d dbg ds x Ea Hds Hx) as (h & E1 & F1). destruct (Domain.class_fed a R s d dbg es y Ea Hes Hy) as (k & E2 & F2).
  destruct (class_rate a R s d Ea) as ((q & Hq & Hq25 & ->) & Hs & _).
  pose proof (concat_bytes ds Hds) as Bd. pose proof (concat_bytes es Hes) as Be.
  pose proof (fed_sok q Hq Hq25 s _ _ h Hs Bd F1) as [L1 _]. pose proof (fed_sok q Hq Hq25 s _ _ k Hs Be F2) as [L2 _].
  destruct (class_equal a _ s d dbg x y h k Ea E1 E2 L1 L2) as (o & Eo & Ho). rewrite Eo. f_equal. destruct o; [exfalso|reflexivity].
  pose proof (proj1 Ho eq_refl) as <-. apply Hne. rewrite Cd in Bd, F1. rewrite Ce in Be, F2. rewrite !bytes_ok_app in Bd, Be.
  destruct Bd as (B1 & B2 & B3), Be as (_ & B4 & _).
  exact (one_block q Hq Hq25 s u b b' v _ h Hs B1 B2 B4 B3 Au Lb LR F1 F2).
Qed.
Theorem class_reached a R s d dbg u v t : sponge_parameters a = Some (R, s, d) -> (length u mod R = 0)%nat -> (length v mod R = 0)%nat ->
  bytes_ok u -> bytes_ok v -> bytes_ok t -> length t = R ->
  inner R (Spec.Inner.absorbed R (pieces R u)) = inner R (Spec.Inner.absorbed R (pieces R v)) ->
  exists t', length t' = R /\ bytes_ok t' /\ forall w ds es x y, Forall span_ok ds -> Forall span_ok es -> concat ds = u ++ t ++ w -> concat es = v ++ t' ++ w ->
    digested (class a dbg) ds x -> digested (class a dbg) es y ->
    equal a dbg x y = Ok true /\ exists e, c_array (class a dbg) x = Ok e /\ c_array (class a dbg) y = Ok e.
Proof.
  assert (forall q P, (0 < q)%nat -> (q <= 25)%nat -> (forall m, Domain.body (8 * q) s m = m) -> proper s -> P = Domain.suffix_byte s ->
    aligned (8 * q) u -> aligned (8 * q) v -> bytes_ok u -> bytes_ok v -> bytes_ok t -> length t = (8 * q)%nat ->
    inner (8 * q) (Spec.Inner.absorbed (8 * q) (pieces (8 * q) u)) = inner (8 * q) (Spec.Inner.absorbed (8 * q) (pieces (8 * q) v)) ->
    exists t', length t' = (8 * q)%nat /\ bytes_ok t' /\ forall w ds es x y, Forall span_ok ds -> Forall span_ok es -> concat ds = u ++ t ++ w -> concat es = v ++ t' ++ w ->
      digested (M.cls (8 * q) P dbg d) ds x -> digested (M.cls (8 * q) P dbg d) es y ->
      keccak_eq x y = Ok true /\ exists e, c_array (M.cls (8 * q) P dbg d) x = Ok e /\ c_array (M.cls (8 * q) P dbg d) y = Ok e) as G.
  { intros q P Hq Hq25 Eb Hs -> Au Av Bu Bv Bt Lt EI.
    destruct (reached q Hq Hq25 s dbg d u v t Eb Hs Au Av Bu Bv (conj Lt Bt) EI) as (t' & [L B] & F). exists t'. split; [exact L|]. split; [exact B|].
    intros w ds es x y H1 H2 H3 H4 H5 H6. destruct (F w ds es x y H1 H2 H3 H4 H5 H6) as [G1 G2]. split; [exact G1|]. exists (M.k_final (snd x)).
    split; [reflexivity|]. rewrite G2. reflexivity. }
  destruct a; cbn [sponge_parameters]; intros E; try discriminate E; injection E as ER Es Ed; subst R s d.
  - exact (G 18%nat 6 ltac:(lia) ltac:(lia) (fun _ => eq_refl) I eq_refl).
  - exact (G 17%nat 6 ltac:(lia) ltac:(lia) (fun _ => eq_refl) I eq_refl).
  - exact (G 13%nat 6 ltac:(lia) ltac:(lia) (fun _ => eq_refl) I eq_refl).
  - exact (G 9%nat 6 ltac:(lia) ltac:(lia) (fun _ => eq_refl) I eq_refl).
  - exact (G 21%nat 31 ltac:(lia) ltac:(lia) (fun _ => eq_refl) I eq_refl).
  - exact (G 17%nat 31 ltac:(lia) ltac:(lia) (fun _ => eq_refl) I eq_refl).
Qed.

(** ** Inner collisions exist: there are more inputs of 25 blocks than inner parts *)
Lemma inner_exists q : (0 < q)%nat -> (q <= 25)%nat -> exists u v, u <> v /\ length u = (8 * q * 25)%nat /\ length v = (8 * q * 25)%nat /\ bytes_ok u /\ bytes_ok v /\
  inner (8 * q) (Spec.Inner.absorbed (8 * q) (pieces (8 * q) u)) = inner (8 * q) (Spec.Inner.absorbed (8 * q) (pieces (8 * q) v)).
Proof.
  intros Hq Hq25. set (R := (8 * q)%nat). set (state u := fold_left step (pieces R u) (repeat 0 25)).
  assert (forall u, length u = (R * 25)%nat -> bytes_ok u -> aligned R u /\ sok (state u)) as K.
  { intros u Lu Bu. assert (aligned R u) as Au by (unfold aligned; rewrite Lu, Nat.mul_comm; apply Nat.mod_mul; unfold R; lia). split; [exact Au|].
    apply (fold_sok q Hq Hq25); [now apply aligned_blocks|apply zeros_sok]. }
  destruct (Proof.Pigeonhole.collision (R * 25) (8 * (25 - q)) (fun u => flat_map (le_bytes 8) (skipn q (state u)))) as (u & v & Lu & Bu & Lv & Bv & Hne & E).
  - unfold R. lia.
  - intros u Lu Bu. destruct (K u Lu Bu) as [_ [L _]]. split; [|apply bytes_ok_flat_map, le_bytes_ok].
    rewrite (Class.flat_length _ 8) by apply le_bytes_length. rewrite skipn_length, L. reflexivity.
  - exists u, v. do 5 (split; [assumption|]). destruct (K u Lu Bu) as [Au [Lsu Bsu]]. destruct (K v Lv Bv) as [Av [Lsv Bsv]].
    unfold R. rewrite !(absorbed_lanes q Hq Hq25) by (apply aligned_blocks; assumption). rewrite !lanes_skip.
    assert (forall n (l : list N), Forall (bnd 64) l -> Forall (bnd 64) (skipn n l)) as KS.
    { induction n as [|n IH]; intros l Hl; [exact Hl|]. destruct Hl; [constructor|]. cbn [skipn]. now apply IH. }
    fold R. fold (state u) (state v). rewrite !lane_bits_bytes by (now apply KS). now rewrite E.
Qed.
Theorem class_collide a R s d dbg : sponge_parameters a = Some (R, s, d) -> exists m m' x y e, m <> m' /\ bytes_ok m /\ bytes_ok m' /\
  digested (class a dbg) [m] x /\ digested (class a dbg) [m'] y /\ equal a dbg x y = Ok true /\ c_array (class a dbg) x = Ok e /\ c_array (class a dbg) y = Ok e.
Proof.
  intros Ea. destruct (class_rate a R s d Ea) as ((q & Hq & Hq25 & ER) & _ & _). pose proof (inner_exists q Hq Hq25) as (u & v & Hne & Lu & Lv & Bu & Bv & EI).
  assert (0 < R)%nat as HR by lia. assert (R <= 200)%nat as HR2 by lia. rewrite <- ER in Lu, Lv, EI. clear ER.
  assert (forall u : list N, length u = (R * 25)%nat -> (length u mod R = 0)%nat) as Al by (intros w ->; rewrite Nat.mul_comm; apply Nat.mod_mul; lia).
  destruct (class_reached a R s d dbg u v (repeat 0 R) Ea (Al u Lu) (Al v Lv) Bu Bv (bytes_ok_repeat 0 R eq_refl) (repeat_length _ _) EI) as (t & Lt & Bt & F).
  assert (span_ok (u ++ repeat 0 R ++ []) /\ span_ok (v ++ t ++ [])) as [S1 S2].
  { assert (bytes_ok (repeat 0 R) /\ bytes_ok []) as [B0 BN] by (split; [apply bytes_ok_repeat; reflexivity|apply Forall_nil]).
    assert (forall m, bytes_ok m -> (length m <= 200 * 26)%nat -> span_ok m) as SO.
    { intros m B L. split; [exact B|]. change (2 ^ 64) with 18446744073709551616. lia. }
    split; apply SO.
    - rewrite !bytes_ok_app. exact (conj Bu (conj B0 BN)).
    - rewrite !app_length, repeat_length, Lu. cbn [length]. lia.
    - rewrite !bytes_ok_app. exact (conj Bv (conj Bt BN)).
    - rewrite !app_length, Lt, Lv. cbn [length]. lia. }
  assert (forall m, span_ok m -> exists x, digested (class a dbg) [m] x) as EX.
  { assert (forall C h ab dn m, Implements C h (fun _ => True) ab dn -> span_ok m -> exists x, digested C [m] x) as G.
    { intros C h ab dn m HI Hm. destruct (proj1 (implements_hashed C h _ ab dn m HI Hm I)) as (x0 & E0 & E1). exists (dn m), x0. cbn [foldM]. rewrite E0, bind_ok. auto. }
    intros m Hm. clear -Ea Hm G.
    assert (forall C h, Correct C h (fun _ => True) -> exists x, digested C [m] x) as G' by (intros C h (ab & dn & HI); exact (G C h ab dn m HI Hm)).
    destruct a; cbn [sponge_parameters] in Ea; try discriminate Ea.
    - exact (G' _ _ (sha3_224_correct dbg)).
    - exact (G' _ _ (sha3_256_correct dbg)).
    - exact (G' _ _ (sha3_384_correct dbg)).
    - exact (G' _ _ (sha3_512_correct dbg)).
    - exact (G' _ _ (shake128_correct dbg _)).
    - exact (G' _ _ (shake256_correct dbg _)). }
  destruct (EX _ S1) as (x & Hx). destruct (EX _ S2) as (y & Hy).
  destruct (F [] [u ++ repeat 0 R ++ []] [v ++ t ++ []] x y) as (E1 & e & E2 & E3); try assumption; try (repeat constructor; assumption).
  - constructor; [exact S1|constructor].
  - constructor; [exact S2|constructor].
  - cbn [concat]. now rewrite app_nil_r.
  - cbn [concat]. now rewrite app_nil_r.
  - exists (u ++ repeat 0 R ++ []), (v ++ t ++ []), x, y, e. split; [|repeat split; try assumption; apply S1 || apply S2].
    intros E. apply Hne. apply (f_equal (firstn (R * 25))) in E. rewrite !firstn_app, Lu, Lv, Nat.sub_diag in E. cbn [firstn] in E.
    rewrite !app_nil_r, !firstn_all2 in E by lia. exact E.
Qed.

(** ** cSHAKE *)
Lemma cshake_states x y h k : selected_state x = Some h -> selected_state y = Some k -> length h = 25%nat -> length k = 25%nat -> cshake_eq x y = Ok true -> h = k.
Proof.
  unfold selected_state, cshake_eq. intros E1 E2 L1 L2 E. destruct (eqb (CShake.m_customized x) (CShake.m_customized y)) eqn:EB; [|discriminate E].
  cbn [negb] in E. apply eqb_prop in EB. rewrite <- EB in E2. destruct (CShake.m_customized x).
  - destruct (CShake.m_keccak x) as [a|]; [|discriminate]. destruct (CShake.m_keccak y) as [b|]; [|discriminate]. cbn [option_map] in *.
    injection E1 as <-. injection E2 as <-. cbn [CShake.deref] in E. rewrite !bind_ok in E.
    destruct (eq_array_spec 25 (M.k_state (snd a)) (M.k_state (snd b)) L1 L2) as (o & Eo & Ho). unfold keccak_eq in E. rewrite Eo in E. apply Ho. now apply Proof.Crc32.Ok_inj in E.
  - destruct (CShake.m_shake x) as [a|]; [|discriminate]. destruct (CShake.m_shake y) as [b|]; [|discriminate]. cbn [option_map] in *.
    injection E1 as <-. injection E2 as <-. cbn [CShake.deref] in E. rewrite !bind_ok in E.
    destruct (eq_array_spec 25 (M.k_state (snd a)) (M.k_state (snd b)) L1 L2) as (o & Eo & Ho). unfold keccak_eq in E. rewrite Eo in E. apply Ho. now apply Proof.Crc32.Ok_inj in E.
Qed.
Lemma named n c n' c' : function_of (FromCShake n c) = function_of (FromCShake n' c') -> n = n' /\ c = c'.
Proof.
  assert (forall n c, function_of (FromCShake n c) = FromShake /\ n = [] /\ c = [] \/ function_of (FromCShake n c) = FromCShake n c /\ ~ (n = [] /\ c = [])) as K.
  { intros [|] [|]; [left; repeat split|right|right|right]; (split; [reflexivity|]); intros [? ?]; discriminate. }
  destruct (K n c) as [(-> & -> & ->)|(-> & H1)], (K n' c') as [(-> & -> & ->)|(-> & H2)]; intros E; try discriminate; auto. now injection E.
Qed.
Lemma cshake_meet q n c n' c' z m m' x y : (0 < q)%nat -> (q <= 25)%nat -> short n -> short c -> short n' -> short c' -> bytes_ok m -> bytes_ok m' ->
  (exists h, selected_state x = Some h /\ foldM (M.compress (8 * q)) (fed (8 * q) (FromCShake n c) m ++ repeat (repeat 0 (8 * q)%nat) z) (repeat 0 25) = Ok h) ->
  (exists h, selected_state y = Some h /\ foldM (M.compress (8 * q)) (fed (8 * q) (FromCShake n' c') m' ++ repeat (repeat 0 (8 * q)%nat) z) (repeat 0 25) = Ok h) ->
  cshake_eq x y = Ok true -> (n = n' /\ c = c' /\ m = m') \/
    inner_collision (8 * q) (removelast (fed (8 * q) (FromCShake n c) m)) (removelast (fed (8 * q) (FromCShake n' c') m')).
Proof.
  intros Hq Hq25 Hn Hc Hn' Hc' Hm Hm' (h & E1 & F1) (k & E2 & F2) E.
  pose proof (Domain.short_proper n c Hn Hc) as P1. pose proof (Domain.short_proper n' c' Hn' Hc') as P2.
  pose proof (fed_sok q Hq Hq25 _ _ _ h P1 Hm F1) as [L1 _]. pose proof (fed_sok q Hq Hq25 _ _ _ k P2 Hm' F2) as [L2 _].
  pose proof (cshake_states x y h k E1 E2 L1 L2 E) as <-.
  destruct (fed_meet q Hq Hq25 _ _ _ _ _ h P1 P2 Hm Hm' F1 F2) as [[G1 G2]|G]; [left|right; exact G]. apply named in G1 as [-> ->]. auto.
Qed.
Theorem cshake128_meet lg dbg l n c n' c' ds es x y : log2_accurate lg -> ok_cargs (l, n, c) -> ok_cargs (l, n', c') -> Forall span_ok ds -> Forall span_ok es ->
  odigested (Model.CShake.cls128 lg dbg) (l, n, c) ds x -> odigested (Model.CShake.cls128 lg dbg) (l, n', c') es y -> cshake_eq x y = Ok true ->
  (n = n' /\ c = c' /\ concat ds = concat es) \/
  inner_collision 168 (removelast (fed 168 (FromCShake n c) (concat ds))) (removelast (fed 168 (FromCShake n' c') (concat es))).
Proof.
  intros Hlg Ha Hb Hds Hes Hx Hy. pose proof (Domain.cshake128_fed lg dbg l n c ds x Hlg Ha Hds Hx) as F1. pose proof (Domain.cshake128_fed lg dbg l n' c' es y Hlg Hb Hes Hy) as F2.
  destruct Ha as (_ & Hn & Hc), Hb as (_ & Hn' & Hc').
  exact (cshake_meet 21 n c n' c' _ _ _ x y ltac:(lia) ltac:(lia) Hn Hc Hn' Hc' (concat_bytes ds Hds) (concat_bytes es Hes) F1 F2).
Qed.
Theorem cshake256_meet lg dbg l n c n' c' ds es x y : log2_accurate lg -> ok_cargs (l, n, c) -> ok_cargs (l, n', c') -> Forall span_ok ds -> Forall span_ok es ->
  odigested (Model.CShake.cls256 lg dbg) (l, n, c) ds x -> odigested (Model.CShake.cls256 lg dbg) (l, n', c') es y -> cshake_eq x y = Ok true ->
  (n = n' /\ c = c' /\ concat ds = concat es) \/
  inner_collision 136 (removelast (fed 136 (FromCShake n c) (concat ds))) (removelast (fed 136 (FromCShake n' c') (concat es))).
Proof.
  intros Hlg Ha Hb Hds Hes Hx Hy. pose proof (Domain.cshake256_fed lg dbg l n c ds x Hlg Ha Hds Hx) as F1. pose proof (Domain.cshake256_fed lg dbg l n' c' es y Hlg Hb Hes Hy) as F2.
  destruct Ha as (_ & Hn & Hc), Hb as (_ & Hn' & Hc').
  exact (cshake_meet 17 n c n' c' _ _ _ x y ltac:(lia) ltac:(lia) Hn Hc Hn' Hc' (concat_bytes ds Hds) (concat_bytes es Hes) F1 F2).
Qed.
