(** The sha2_*.h headers compute the SHA-2 functions. *)
From Coq Require Import List NArith Arith Bool Lia.
From Verif.Base Require Import Res CWord.
From Verif.Spec Require Import Words Client Merkle.
From Verif.Spec Require Sha2.
From Verif.Model Require Import Buffer Stream Api.
From Verif.Model.Gen Require Import Sha2Tables.
From Verif.Model Require Sha2.
From Verif.Proof Require Import Words Streaming Blocks Api MD MD128 Rounds.
Import ListNotations.
Module S := Verif.Spec.Sha2.
Module M := Verif.Model.Sha2.
Local Open Scope N_scope.

Definition to_list (v : S.vars) : list N :=
  let '(a, b, c, d, e, f, g, h) := v in [a; b; c; d; e; f; g; h].
Definition regs_of (k : nat) : list nat := map (fun j => ((j + 8 - k) mod 8)%nat) (seq 0 8).

Section Core.
  Variables (w : N) (nb rounds : nat).
  Variables ssig0 ssig1 bsig0 bsig1 : N -> N.
  Variables sigma0 sigma1 Sigma0 Sigma1 : N -> N.
  Variable K : list N.
  Hypothesis Hw : w = 8 * N.of_nat nb.
  Hypothesis Hnb : (0 < nb)%nat.
  Hypothesis Hrounds : (16 <= rounds)%nat.
  Hypothesis Hr8 : (rounds = 8 * (rounds / 8))%nat.
  Hypothesis HK : length K = rounds.
  Hypothesis Hs0 : forall x, bnd w x -> ssig0 x = sigma0 x.
  Hypothesis Hs1 : forall x, bnd w x -> ssig1 x = sigma1 x.
  Hypothesis HS0 : forall x, bnd w x -> bsig0 x = Sigma0 x.
  Hypothesis HS1 : forall x, bnd w x -> bsig1 x = Sigma1 x.

  Variables (blk tl : list N).
  Hypothesis Hlen : length blk = (nb * 16)%nat.
  Hypothesis Hok : bytes_ok blk.
  Let Mw := be_words nb blk.
  Let next := S.next_word w sigma0 sigma1.
  Let W := S.schedule w rounds sigma0 sigma1 Mw.

  Lemma Mw_len : length Mw = 16%nat.
  Proof. apply be_words_length; [lia|exact Hlen]. Qed.
  Lemma Mw_bnd : Forall (bnd w) Mw.
  Proof. rewrite Hw. apply (be_words_bnd nb 16); [lia|exact Hlen|exact Hok]. Qed.
  Lemma W_len : length W = rounds.
  Proof. unfold W, S.schedule. rewrite extend_length, Mw_len. lia. Qed.
  Lemma W_bnd : Forall (bnd w) W.
  Proof. apply extend_Forall; [|apply Mw_bnd]. intros l _. apply bnd_sum. Qed.
  Lemma W_first t : (t < 16)%nat -> nth t W 0 = nth t Mw 0.
  Proof. intros H. unfold W, S.schedule. apply extend_nth_l. rewrite Mw_len. lia. Qed.
  Lemma W_next t : (16 <= t < rounds)%nat -> nth t W 0 = next (firstn t W).
  Proof. intros H. exact (extend_nth 0 next (rounds - 16) Mw t ltac:(rewrite Mw_len; lia)). Qed.

  Lemma fill_w_ok : M.fill_w w nb rounds ssig0 ssig1 (blk ++ tl) = Ok W.
  Proof.
    unfold M.fill_w. rewrite <- (filled_0 rounds W).
    pose proof W_len as HWl. pose proof W_bnd as HWb. pose proof W_first as HW1. pose proof W_next as HW2.
    clearbody W.
    destruct (for_inv (fun t wt => wt = filled rounds t W)
      (fun t wt => let! x := load_be nb (blk ++ tl) t in aset wt t x) 16 0 (filled rounds 0 W))
      as (s & -> & ->); [reflexivity| |].
    { intros t s Ht ->. rewrite (load_be_ok nb 16) by (auto; lia). cbn [bind].
      eexists; split; [|reflexivity]. apply aset_filled; [lia|exact HWl|].
      symmetry. apply HW1. lia. }
    cbn [bind Nat.add].
    destruct (for_inv (fun t wt => wt = filled rounds t W)
      (fun t wt =>
      let! w2 := aget_back wt t 2 in
      let! w7 := aget_back wt t 7 in
      let! w15 := aget_back wt t 15 in
      let! w16 := aget_back wt t 16 in
      aset wt t (uadd w (uadd w (uadd w (ssig1 w2) w7) (ssig0 w15)) w16)) (rounds - 16) 16 (filled rounds 16 W))
      as (s & -> & ->); [reflexivity| |].
    { intros t s Ht ->. rewrite !aget_back_filled by lia. cbn [bind].
      eexists; split; [|reflexivity]. apply aset_filled; [lia|exact HWl|].
      rewrite (HW2 t) by lia. unfold next, S.next_word. rewrite !back_firstn by lia.
      rewrite Hs0, Hs1 by (apply Forall_nth_bnd, HWb). sum_eq w. }
    f_equal. replace (16 + (rounds - 16))%nat with rounds by lia. apply filled_all, HWl.
  Qed.

  Definition inv (t : nat) (v : S.vars) (r : list N) : Prop := r = rotate (t mod 8) (to_list v).

  Definition do_round (k t : nat) (r : list N) : res (list N) :=
    match regs_of k with
    | [a; b; c; d; e; f; g; h] => M.round w bsig0 bsig1 K W a b c d e f g h t r
    | _ => Ub OutOfFuel
    end.

  Lemma round_ok t v r :
    (t < rounds)%nat -> inv t v r -> Forall (bnd w) (to_list v) ->
    exists r', do_round (t mod 8) t r = Ok r' /\
      inv (S t) (S.step w Sigma0 Sigma1 K W v t) r'.
  Proof.
    intros Ht -> Hv. destruct v as [[[[[[[a b] c] d] e] f] g] h]. cbn [to_list] in *. inv_Forall.
    unfold do_round, inv, M.round. rewrite mod_succ by lia.
    assert (aget K t = Ok (nth t K 0)) as EK by (apply aget_ok; lia).
    assert (aget W t = Ok (nth t W 0)) as EW by (apply aget_ok; rewrite W_len; lia).
    rewrite EK, EW. clear EK EW.
    set (kt := nth t K 0). set (wt := nth t W 0).
    cbn [S.step]. fold kt wt. clearbody W kt wt.
    assert (forall T1 T1' T2 T2' d', T1 = T1' -> T2 = T2' ->
       (uadd w d' T1, uadd w T1 T2) = (add w d' T1', add w T1' T2')) as Hpair
      by (intros; subst; rewrite !uadd_spec; reflexivity).
    assert (uadd w (uadd w (uadd w (uadd w h (bsig1 e)) (M.ch e f g)) kt) wt
            = sum w [h; Sigma1 e; S.Ch w e f g; kt; wt]) as E1.
    { rewrite HS1 by assumption. replace (M.ch e f g) with (S.Ch w e f g)
        by (symmetry; apply ch_alt; assumption). sum_eq w. }
    assert (uadd w (bsig0 a) (M.maj a b c) = sum w [Sigma0 a; S.Maj a b c]) as E2.
    { rewrite HS0 by assumption. replace (M.maj a b c) with (S.Maj a b c)
        by (symmetry; apply maj_alt1). sum_eq w. }
    destruct (mod8_cases t) as [E|[E|[E|[E|[E|[E|[E|E]]]]]]]; rewrite E;
      cbn -[uadd add sum M.ch M.maj S.Ch S.Maj Nat.eqb]; rewrite E1, E2, !uadd_spec; eexists; split; reflexivity.
  Qed.

  Lemma eight_ok t v r :
    (t < rounds / 8)%nat -> inv (8 * t) v r -> Forall (bnd w) (to_list v) ->
    exists r', M.eight w bsig0 bsig1 K W t r = Ok r' /\
      inv (8 * S t) (fold_left (S.step w Sigma0 Sigma1 K W) (seq (8 * t) 8) v) r' /\
      Forall (bnd w) (to_list (fold_left (S.step w Sigma0 Sigma1 K W) (seq (8 * t) 8) v)).
  Proof.
    intros Ht Hi Hv.
    assert (M.eight w bsig0 bsig1 K W t r = for_ 0 8 (fun k => do_round k (8 * t + k)) r) as ->.
    { unfold M.eight, do_round. cbn [for_]. cbv zeta.
      do 7 (apply bind_ext; intros ?). cbn [regs_of map seq].
      symmetry. apply bind_Ok_r. }
    destruct (for_inv (fun k r => let v' := fold_left (S.step w Sigma0 Sigma1 K W) (seq (8 * t) k) v in
        inv (8 * t + k) v' r /\ Forall (bnd w) (to_list v'))
      (fun k => do_round k (8 * t + k)) 8 0 r) as (r' & E & Hi' & Hv').
    - cbn [seq fold_left]. rewrite Nat.add_0_r. auto.
    - intros k s Hk [Hi' Hv']. cbv zeta.
      destruct (round_ok (8 * t + k) _ s ltac:(lia) Hi' Hv') as (s' & E & Hs').
      replace ((8 * t + k) mod 8)%nat with k in E.
      2:{ rewrite Nat.mul_comm, Nat.add_comm, Nat.mod_add, Nat.mod_small by lia. reflexivity. }
      exists s'. split; [exact E|]. rewrite seq_S, fold_left_app. cbn [fold_left].
      rewrite Nat.add_succ_r. split; [exact Hs'|].
      destruct (fold_left _ (seq (8 * t) k) v) as [[[[[[[a b] c] d] e] f] g] h].
      cbn [to_list S.step] in *. inv_Forall. repeat constructor; auto with wb.
    - exists r'. split; [exact E|]. cbn [Nat.add] in *. cbv zeta in Hi'.
      replace (8 * S t)%nat with (8 * t + 8)%nat by lia. auto.
  Qed.

  Lemma fold_seq_chunks {A} (f : A -> nat -> A) n v :
    fold_left (fun v t => fold_left f (seq (8 * t) 8) v) (seq 0 n) v = fold_left f (seq 0 (8 * n)) v.
  Proof.
    induction n as [|n IH]; [reflexivity|].
    rewrite fold_left_seq_S, IH, <- fold_left_app.
    replace (8 * S n)%nat with (8 * n + 8)%nat by lia. rewrite seq_app. reflexivity.
  Qed.

  Definition inv_state (h : list N) : Prop := length h = 8%nat /\ Forall (bnd w) h.

  Lemma compress_ok h : inv_state h ->
    M.compress w nb rounds ssig0 ssig1 bsig0 bsig1 K (blk ++ tl) h =
      Ok (S.compress w nb rounds Sigma0 Sigma1 sigma0 sigma1 K h blk) /\
    inv_state (S.compress w nb rounds Sigma0 Sigma1 sigma0 sigma1 K h blk).
  Proof.
    intros [Hl Hh]. destruct (list_len8 h Hl) as (h0 & h1 & h2 & h3 & h4 & h5 & h6 & h7 & ->).
    unfold M.compress, S.compress. rewrite fill_w_ok. cbn [bind].
    fold Mw. fold W.
    set (v0 := (h0, h1, h2, h3, h4, h5, h6, h7)).
    destruct (for_inv (fun t r => let v := fold_left (S.step w Sigma0 Sigma1 K W) (seq 0 (8 * t)) v0 in
       inv (8 * t) v r /\ Forall (bnd w) (to_list v)) (M.eight w bsig0 bsig1 K W)
       (rounds / 8) 0 [h0; h1; h2; h3; h4; h5; h6; h7]) as (r & E & Hi & Hv).
    - split; [reflexivity|exact Hh].
    - intros t r Ht [Hi Hv]. destruct (eight_ok t _ r ltac:(lia) Hi Hv) as (r' & E & Hi' & Hv').
      exists r'. cbv zeta in *. replace (8 * S t)%nat with (8 * t + 8)%nat in * by lia.
      rewrite seq_app, fold_left_app. auto.
    - change (mapM (aget [h0; h1; h2; h3; h4; h5; h6; h7]) (seq 0 8))
        with (Ok [h0; h1; h2; h3; h4; h5; h6; h7]). cbn [bind]. rewrite E. cbn [bind].
      cbv zeta in *. cbn [Nat.add] in *. rewrite <- Hr8 in *.
      unfold inv in Hi. rewrite Hr8, Nat.mul_comm, Nat.mod_mul in Hi by lia.
      rewrite Nat.mul_comm, <- Hr8 in Hi.
      destruct (fold_left (S.step w Sigma0 Sigma1 K W) (seq 0 rounds) v0) as [[[[[[[a b] c] d] e] f] g] h].
      unfold rotate in Hi. cbn [skipn firstn to_list app] in Hi. subst r.
      cbn -[uadd add]. rewrite !uadd_spec. split.
      + rewrite (add_comm _ a), (add_comm _ b), (add_comm _ c), (add_comm _ d),
          (add_comm _ e), (add_comm _ f), (add_comm _ g), (add_comm _ h). reflexivity.
      + split; [reflexivity|]. repeat constructor; apply bnd_wadd.
  Qed.
End Core.

(** ** the two word sizes *)

(** the constants.  The cube roots are checked, not recomputed: r is the root of x if
    r^3 <= x < (r+1)^3. *)
Definition cube (x : N) : N := x * x * x.

Lemma cube_lt x y : x < y -> cube x < cube y.
Proof.
  intros H. unfold cube. apply N.mul_lt_mono; [|exact H]. apply N.mul_lt_mono; exact H.
Qed.

Lemma cbrt_from_ok k x : forall acc, cube acc <= x -> x < cube (acc + 2 ^ N.of_nat (S k)) ->
  cube (S.cbrt_from k x acc) <= x /\ x < cube (S.cbrt_from k x acc + 1).
Proof.
  induction k as [|k IH]; intros acc H1 H2; cbn [S.cbrt_from].
  - change (2 ^ N.of_nat 0) with 1. fold (cube (acc + 1)).
    destruct (N.leb_spec (cube (acc + 1)) x) as [H|H].
    + split; [exact H|]. replace (acc + 1 + 1) with (acc + 2 ^ N.of_nat 1) by (cbn; lia). exact H2.
    + split; assumption.
  - fold (cube (acc + 2 ^ N.of_nat (S k))). set (P := 2 ^ N.of_nat (S k)) in *.
    assert (2 ^ N.of_nat (S (S k)) = P + P) as E
      by (unfold P; rewrite (Nnat.Nat2N.inj_succ (S k)), N.pow_succ_r'; lia).
    rewrite E in H2.
    destruct (N.leb_spec (cube (acc + P)) x) as [H|H]; apply IH; auto.
    now rewrite <- N.add_assoc.
Qed.

Lemma cube_root_unique x r s : cube r <= x -> x < cube (r + 1) -> cube s <= x -> x < cube (s + 1) -> r = s.
Proof.
  intros Hr1 Hr2 Hs1 Hs2. destruct (N.lt_trichotomy r s) as [H|[H|H]]; [|exact H|].
  - destruct (N.eq_dec (r + 1) s) as [<-|Hn]; [lia|].
    pose proof (cube_lt (r + 1) s ltac:(lia)). lia.
  - destruct (N.eq_dec (s + 1) r) as [<-|Hn]; [lia|].
    pose proof (cube_lt (s + 1) r ltac:(lia)). lia.
Qed.

Definition is_frac_cbrt (w p k : N) : bool :=
  existsb (fun q => let r := q * 2 ^ w + k in
             (cube r <=? p * 2 ^ (3 * w)) && (p * 2 ^ (3 * w) <? cube (r + 1))) [1; 2; 3; 4; 5; 6; 7].

Lemma frac_cbrt_ok w p k : k < 2 ^ w -> p < 2 ^ 15 -> is_frac_cbrt w p k = true -> S.frac_cbrt w p = k.
Proof.
  intros Hk Hp H. unfold is_frac_cbrt in H. apply existsb_exists in H. destruct H as (q & _ & H).
  cbv zeta in H. apply andb_true_iff in H. destruct H as [H1 H2].
  apply N.leb_le in H1. apply N.ltb_lt in H2.
  unfold S.frac_cbrt.
  destruct (cbrt_from_ok (N.to_nat w + 4) (p * 2 ^ (3 * w)) 0) as [H3 H4].
  - apply N.le_0_l.
  - rewrite N.add_0_l, Nnat.Nat2N.inj_succ, Nnat.Nat2N.inj_add, Nnat.N2Nat.id.
    change (N.of_nat 4) with 4. replace (N.succ (w + 4)) with (w + 5) by lia.
    unfold cube. rewrite <- !N.pow_add_r. replace (w + 5 + (w + 5) + (w + 5)) with (15 + 3 * w) by lia.
    rewrite N.pow_add_r. apply N.mul_lt_mono_pos_r; [apply pow2_pos|exact Hp].
  - rewrite (cube_root_unique _ _ _ H3 H4 H1 H2).
    rewrite N.add_comm, N.mod_add by apply pow2_nz. apply N.mod_small, Hk.
Qed.

Lemma frac_cbrt_list w ps ks : length ps = length ks ->
  forallb (fun pk => (snd pk <? 2 ^ w) && (fst pk <? 2 ^ 15) && is_frac_cbrt w (fst pk) (snd pk)) (combine ps ks) = true ->
  map (S.frac_cbrt w) ps = ks.
Proof.
  revert ks; induction ps as [|p ps IH]; intros [|k ks] Hl H; try discriminate; [reflexivity|].
  cbn [combine forallb fst snd] in H. apply andb_true_iff in H. destruct H as [H H'].
  apply andb_true_iff in H. destruct H as [H H3]. apply andb_true_iff in H. destruct H as [H1 H2].
  apply N.ltb_lt in H1, H2. cbn [map]. f_equal.
  - apply frac_cbrt_ok; assumption.
  - apply IH; [now injection Hl|exact H'].
Qed.

Definition prime_list : list N := [
  2; 3; 5; 7; 11; 13; 17; 19; 23; 29; 31; 37; 41; 43; 47; 53; 59; 61; 67; 71;
  73; 79; 83; 89; 97; 101; 103; 107; 109; 113; 127; 131; 137; 139; 149; 151; 157; 163; 167; 173;
  179; 181; 191; 193; 197; 199; 211; 223; 227; 229; 233; 239; 241; 251; 257; 263; 269; 271; 277; 281;
  283; 293; 307; 311; 313; 317; 331; 337; 347; 349; 353; 359; 367; 373; 379; 383; 389; 397; 401; 409].
Lemma primes_ok : S.primes = prime_list.
Proof. vm_compute. reflexivity. Qed.

Lemma kTable32_ok : kTable32 = S.K256.
Proof.
  unfold S.K256. rewrite primes_ok. symmetry. apply frac_cbrt_list; [reflexivity|]. vm_compute. reflexivity.
Qed.
Lemma kTable64_ok : kTable64 = S.K512.
Proof.
  unfold S.K512. rewrite primes_ok. symmetry. apply frac_cbrt_list; [reflexivity|]. vm_compute. reflexivity.
Qed.

Lemma bnd_ror_small w x s : bnd w x -> ror w x s = SHR s x.
Proof.
  intros H. rewrite ror_spec. unfold SHR. apply N.mod_small.
  apply (bnd_ushr w x s) in H. unfold bnd, ushr in H. rewrite N.shiftr_div_pow2 in H. exact H.
Qed.

Ltac sig := intros ? ?; unfold M.xor3, S.x3; rewrite ?rotr_spec, ?bnd_ror_small by (auto; discriminate); reflexivity.

Lemma compress32_ok blk tl h : inv_state 32 h -> length blk = 64%nat -> bytes_ok blk ->
  M.compress32 (blk ++ tl) h = Ok (S.compress256 h blk) /\ inv_state 32 (S.compress256 h blk).
Proof.
  intros Hh Hl Hb. unfold M.compress32, S.compress256. rewrite kTable32_ok.
  apply compress_ok; try (first [reflexivity | lia | assumption | sig]).
Qed.

Lemma compress64_ok blk tl h : inv_state 64 h -> length blk = 128%nat -> bytes_ok blk ->
  M.compress64 (blk ++ tl) h = Ok (S.compress512 h blk) /\ inv_state 64 (S.compress512 h blk).
Proof.
  intros Hh Hl Hb. unfold M.compress64, S.compress512. rewrite kTable64_ok.
  apply compress_ok; try (first [reflexivity | lia | assumption | sig]).
Qed.

(** ** read-outs *)

Lemma bytes_ok_firstn' n l : bytes_ok l -> bytes_ok (firstn n l).
Proof. apply bytes_ok_firstn. Qed.

Lemma flat_map_firstn nb k (l : list N) :
  flat_map (be_bytes nb) (firstn k l) = firstn (nb * k) (flat_map (be_bytes nb) l).
Proof.
  revert l; induction k as [|k IH]; intros l.
  - now rewrite Nat.mul_0_r.
  - destruct l as [|x l]; [cbn [firstn flat_map]; now rewrite firstn_nil|]. cbn [firstn flat_map]. rewrite IH.
    replace (nb * S k)%nat with (length (be_bytes nb x) + nb * k)%nat by (rewrite be_bytes_length; lia).
    now rewrite firstn_app_2.
Qed.

Lemma flat_be_length nb (l : list N) : length (flat_map (be_bytes nb) l) = (nb * length l)%nat.
Proof. induction l as [|x l IH]; cbn [flat_map length]; [lia|]. rewrite app_length, be_bytes_length, IH. lia. Qed.

Lemma toArray_ok w nb size n h : inv_state w h -> (n <= 8)%nat -> size = (nb * n)%nat ->
  M.toArray nb size n h = Ok (firstn size (flat_map (be_bytes nb) h)) /\
  bytes_ok (firstn size (flat_map (be_bytes nb) h)).
Proof.
  intros [Hl _] Hn ->. unfold M.toArray.
  rewrite (flat_map_ext _ (be_bytes nb)) by apply word_bytes_be_ok. rewrite flat_map_firstn. split.
  - apply store_array_eq. rewrite firstn_length_le; [reflexivity|]. rewrite flat_be_length, Hl. nia.
  - apply bytes_ok_firstn, bytes_ok_flat_map, be_bytes_ok.
Qed.

Lemma toArray_512_224_ok h : inv_state 64 h ->
  M.toArray_512_224 h = Ok (firstn 28 (flat_map (be_bytes 8) h)) /\
  bytes_ok (firstn 28 (flat_map (be_bytes 8) h)).
Proof.
  intros [Hl _]. split; [|apply bytes_ok_firstn, bytes_ok_flat_map, be_bytes_ok].
  destruct (list_len8 h Hl) as (h0 & h1 & h2 & h3 & h4 & h5 & h6 & h7 & ->).
  unfold M.toArray_512_224. cbn [aget nth_error bind].
  change (firstn 3 [h0; h1; h2; h3; h4; h5; h6; h7]) with [h0; h1; h2].
  rewrite (flat_map_ext _ (be_bytes 8)) by apply word_bytes_be_ok.
  change [ror 8 h3 56; ror 8 h3 48; ror 8 h3 40; ror 8 h3 32] with (firstn 4 (word_bytes_be 8 h3)).
  rewrite word_bytes_be_ok.
  assert (firstn 28 (flat_map (be_bytes 8) [h0; h1; h2; h3; h4; h5; h6; h7])
    = flat_map (be_bytes 8) [h0; h1; h2] ++ firstn 4 (be_bytes 8 h3)) as ->.
  { change [h0; h1; h2; h3; h4; h5; h6; h7] with ([h0; h1; h2] ++ [h3; h4; h5; h6; h7]).
    rewrite flat_map_app.
    replace 28%nat with (length (flat_map (be_bytes 8) [h0; h1; h2]) + 4)%nat by (rewrite flat_be_length; reflexivity).
    rewrite firstn_app_2. f_equal. }
  apply store_array_eq. rewrite app_length, flat_be_length, firstn_length_le by (rewrite be_bytes_length; lia).
  reflexivity.
Qed.

(** ** the classes *)

Lemma class32 dbg iv arr out : inv_state 32 iv ->
  (forall h, inv_state 32 h -> arr h = Ok (out h) /\ bytes_ok (out h)) ->
  Correct (md_class 64 dbg 128 write_len_be M.compress32 iv arr)
    (fun m => out (chain 64 S.compress256 iv (pad 64 8 128 (be_bytes 8) m))) (fun _ => True).
Proof.
  intros Hiv Harr. do 2 eexists.
  apply (md_implements 64 dbg 128 write_len_be (be_bytes 8) M.compress32 iv arr
           S.compress256 out (inv_state 32)).
  - lia.
  - reflexivity.
  - reflexivity.
  - apply write_len_be_ok.
  - apply be_bytes_length.
  - apply be_bytes_ok.
  - apply (be_bytes_mod 8).
  - exact Hiv.
  - intros blk tl h Hh Hl Hb. apply compress32_ok; assumption.
  - exact Harr.
Qed.

Lemma class64 dbg iv arr out : inv_state 64 iv ->
  (forall h, inv_state 64 h -> arr h = Ok (out h) /\ bytes_ok (out h)) ->
  Correct (md128_class 128 16 dbg M.compress64 iv arr)
    (fun m => out (chain 128 S.compress512 iv (pad 128 16 128 (be_bytes 16) m))) (fun _ => True).
Proof.
  intros Hiv Harr. do 2 eexists.
  apply (md128_implements 128 16 dbg (be_bytes 16) (fun _ => True) M.compress64 iv arr
           S.compress512 out (inv_state 64)).
  - lia.
  - lia.
  - reflexivity.
  - apply be_bytes_length.
  - apply be_bytes_ok.
  - reflexivity.
  - exact Hiv.
  - intros blk tl h Hh Hl Hb. apply compress64_ok; assumption.
  - exact Harr.
Qed.

Lemma firstn_whole n (h : list N) nb : length h = 8%nat -> n = (nb * 8)%nat ->
  firstn n (flat_map (be_bytes nb) h) = flat_map (be_bytes nb) h.
Proof. intros Hl ->. apply firstn_all2. rewrite flat_be_length, Hl. lia. Qed.

(** ** initial values *)

Lemma iv256_ok : M.iv256 = S.IV256.
Proof. unfold S.IV256. rewrite primes_ok. vm_compute. reflexivity. Qed.
Lemma iv512_ok : M.iv512 = S.IV512.
Proof. unfold S.IV512. rewrite primes_ok. vm_compute. reflexivity. Qed.
Lemma iv384_ok : M.iv384 = S.IV384.
Proof. unfold S.IV384. rewrite primes_ok. vm_compute. reflexivity. Qed.
Lemma iv224_ok : M.iv224 = S.IV224.
Proof. unfold S.IV224. rewrite <- iv384_ok. vm_compute. reflexivity. Qed.

(** the generated initial values, computed with the model (already proved equal) *)
Lemma iv_of_t_ok name out : Forall span_ok [name] ->
  hash_chunks (md128_class 128 16 false M.compress64 (map (fun x => N.lxor x 0xa5a5a5a5a5a5a5a5) M.iv512) (M.toArray 8 64 8)) [name] = Ok out ->
  S.iv_of_t name = be_words 8 out.
Proof.
  intros Hn H. set (iv := map _ _) in *.
  assert (inv_state 64 iv) as Hiv by (split; [reflexivity|apply Forall_bndb; vm_compute; reflexivity]).
  pose proof (class64 false iv (M.toArray 8 64 8) (fun h => firstn 64 (flat_map (be_bytes 8) h)) Hiv) as HC.
  assert (Correct (md128_class 128 16 false M.compress64 iv (M.toArray 8 64 8))
    (fun m => firstn 64 (flat_map (be_bytes 8) (chain 128 S.compress512 iv (pad 128 16 128 (be_bytes 16) m)))) (fun _ => True)) as HC'.
  { apply HC. intros h Hh. apply (toArray_ok 64); [exact Hh|lia|reflexivity]. }
  pose proof (correct_chunks _ _ _ HC' [name] Hn I) as E. rewrite H in E.
  assert (concat [name] = name) as En by apply app_nil_r. rewrite En in E.
  assert (forall x y : list N, Ok x = Ok y -> x = y) as Hok by (intros x y [= ->]; reflexivity).
  rewrite (Hok _ _ E). unfold S.iv_of_t, S.digest512. rewrite <- iv512_ok. fold iv.
  f_equal. symmetry. apply firstn_whole; [|reflexivity].
  enough (inv_state 64 (chain 128 S.compress512 iv (pad 128 16 128 (be_bytes 16) name))) as HH by apply HH.
  refine (proj2 (block_loop_ok 128 M.compress64 S.compress512 (inv_state 64) _ _ _ _ _ iv Hiv)).
  - lia.
  - intros blk tl h Hh Hl Hb. apply compress64_ok; assumption.
  - apply pad_aligned; [lia|apply be_bytes_length].
  - apply pad_bytes; [apply Forall_inv in Hn; apply Hn|reflexivity|apply be_bytes_ok].
Qed.

Lemma name_span l : forallb (fun b => b <? 256) l = true -> (length l < 100)%nat -> Forall span_ok [l].
Proof.
  intros H Hl. constructor; [|constructor]. split.
  - apply Forall_forall. intros x Hx. rewrite forallb_forall in H. apply N.ltb_lt, H, Hx.
  - lia.
Qed.

Lemma iv512_224_ok : M.iv512_224 = S.iv_of_t S.name_512_224.
Proof.
  symmetry. erewrite iv_of_t_ok; [|apply name_span; [reflexivity|cbn; lia]|vm_compute; reflexivity].
  vm_compute. reflexivity.
Qed.
Lemma iv512_256_ok : M.iv512_256 = S.iv_of_t S.name_512_256.
Proof.
  symmetry. erewrite iv_of_t_ok; [|apply name_span; [reflexivity|cbn; lia]|vm_compute; reflexivity].
  vm_compute. reflexivity.
Qed.

Theorem sha256_correct dbg : Correct (M.cls256 dbg) S.sha256 (fun _ => True).
Proof.
  unfold S.sha256, S.digest256. rewrite <- iv256_ok.
  apply (class32 dbg M.iv256 (M.toArray 4 32 8) (flat_map (be_bytes 4))).
  - split; [reflexivity|]. repeat constructor.
  - intros h Hh. pose proof (toArray_ok 32 4 32 8 h Hh ltac:(lia) eq_refl) as H.
    rewrite (firstn_whole 32) in H by (try apply Hh; reflexivity). exact H.
Qed.

Theorem sha224_correct dbg : Correct (M.cls224 dbg) S.sha224 (fun _ => True).
Proof.
  unfold S.sha224, S.digest256. rewrite <- iv224_ok.
  apply (class32 dbg M.iv224 (M.toArray 4 28 7) (fun h => firstn 28 (flat_map (be_bytes 4) h))).
  - split; [reflexivity|]. repeat constructor.
  - intros h Hh. apply (toArray_ok 32); [exact Hh|lia|reflexivity].
Qed.

Theorem sha512_correct dbg : Correct (M.cls512 dbg) S.sha512 (fun _ => True).
Proof.
  unfold S.sha512, S.digest512. rewrite <- iv512_ok.
  apply (class64 dbg M.iv512 (M.toArray 8 64 8) (flat_map (be_bytes 8))).
  - split; [reflexivity|]. repeat constructor.
  - intros h Hh. pose proof (toArray_ok 64 8 64 8 h Hh ltac:(lia) eq_refl) as H.
    rewrite (firstn_whole 64) in H by (try apply Hh; reflexivity). exact H.
Qed.

Theorem sha384_correct dbg : Correct (M.cls384 dbg) S.sha384 (fun _ => True).
Proof.
  unfold S.sha384, S.digest512. rewrite <- iv384_ok.
  apply (class64 dbg M.iv384 (M.toArray 8 48 6) (fun h => firstn 48 (flat_map (be_bytes 8) h))).
  - split; [reflexivity|]. repeat constructor.
  - intros h Hh. apply (toArray_ok 64); [exact Hh|lia|reflexivity].
Qed.

Theorem sha512_256_correct dbg : Correct (M.cls512_256 dbg) S.sha512_256 (fun _ => True).
Proof.
  unfold S.sha512_256, S.digest512. rewrite <- iv512_256_ok.
  apply (class64 dbg M.iv512_256 (M.toArray 8 32 4) (fun h => firstn 32 (flat_map (be_bytes 8) h))).
  - split; [reflexivity|]. repeat constructor.
  - intros h Hh. apply (toArray_ok 64); [exact Hh|lia|reflexivity].
Qed.

Theorem sha512_224_correct dbg : Correct (M.cls512_224 dbg) S.sha512_224 (fun _ => True).
Proof.
  unfold S.sha512_224, S.digest512. rewrite <- iv512_224_ok.
  apply (class64 dbg M.iv512_224 M.toArray_512_224 (fun h => firstn 28 (flat_map (be_bytes 8) h))).
  - split; [reflexivity|]. repeat constructor.
  - apply toArray_512_224_ok.
Qed.
