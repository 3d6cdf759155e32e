(** From a class that computes [hash] to the promise of Spec/Client for every program. *)
From Coq Require Import List NArith Arith Bool Lia.
From Verif.Base Require Import Res CWord.
From Verif.Spec Require Import Words Client.
From Verif.Model Require Import Stream Api.
From Verif.Proof Require Import Words.
Import ListNotations.

(** [absorb m] and [done m] are the object after adding [m] and after finalizing it. *)
Record Implements (C : HashClass) (hash : list N -> list N) (dom : list N -> Prop)
    (absorb done : list N -> Obj C) : Prop := mkImpl {
  im_new : c_new C = absorb [];
  im_add : forall m d, bytes_ok m -> span_ok d -> c_add C d (absorb m) = Ok (absorb (m ++ d));
  im_fin : forall m, bytes_ok m -> dom m -> c_finalize C (absorb m) = Ok (done m);
  im_read : forall m, bytes_ok m -> dom m -> c_array C (done m) = Ok (hash m);
  im_reset_a : forall m, bytes_ok m -> c_reset C (absorb m) = c_new C;
  im_reset_d : forall m, bytes_ok m -> dom m -> c_reset C (done m) = c_new C;
  im_bytes : forall m, bytes_ok m -> dom m -> bytes_ok (hash m)
}.

(** ** read-outs *)

Lemma hex_digit_ok x : (x < 16)%N -> hex_digit x = hex_char x.
Proof.
  intros H. unfold hex_char.
  assert (exists k, k < 16 /\ x = N.of_nat k) as (k & Hk & ->).
  { exists (N.to_nat x). split; lia. }
  rewrite Nnat.Nat2N.id.
  do 16 (destruct k as [|k]; [reflexivity|]). lia.
Qed.

Lemma to_string_ok d : bytes_ok d -> d <> [] -> to_string d = Ok (hex_text d).
Proof.
  intros Hd Hne. destruct d as [|b0 d0] eqn:E; [congruence|]. rewrite <- E in *. clear Hne.
  assert (to_string d = Ok (flat_map (fun c => [hex_digit (ror 8 c 4); hex_digit (N.land c 15)]) d)) as ->
    by (rewrite E; reflexivity).
  f_equal. clear E. induction Hd as [|b l Hb Hl IH]; [reflexivity|].
  unfold hex_text in *. cbn [flat_map]. rewrite IH. f_equal.
  unfold byte_ok in Hb. rewrite ror_spec. change (2 ^ 4)%N with 16%N. change (2 ^ 8)%N with 256%N.
  assert (b / 16 < 16)%N by (apply N.div_lt_upper_bound; lia).
  rewrite N.mod_small by lia.
  change 15%N with (N.ones 4). rewrite N.land_ones. change (2 ^ 4)%N with 16%N.
  assert (b mod 16 < 16)%N by (apply N.mod_lt; discriminate).
  rewrite !hex_digit_ok by assumption. reflexivity.
Qed.

Lemma be_value_bound l : bytes_ok l -> (be_value l < 2 ^ (8 * N.of_nat (length l)))%N.
Proof.
  intros H. pose proof (le_value_bound (rev l) (Forall_rev H)) as Hl.
  rewrite <- be_value_rev, rev_involutive, rev_length in Hl.
  rewrite N.pow_mul_r. exact Hl.
Qed.

Lemma firstn_S_nth {A} (d : A) n l : n < length l -> firstn (S n) l = firstn n l ++ [nth n l d].
Proof.
  revert l; induction n as [|n IH]; intros [|a l] H; cbn in *; try lia; [reflexivity|].
  rewrite <- IH by lia. reflexivity.
Qed.

Lemma to_uint_ok n d : bytes_ok d -> to_uint n d = Ok (leading_number n d).
Proof.
  intros Hd. unfold to_uint, leading_number.
  set (k := min n (length d)).
  assert (exists v, for_ 0 k (fun i ret => let! d0 := aget d i in
            Ok (N.lor (ushl (8 * N.of_nat n) ret 8) d0)) 0%N = Ok v /\ v = be_value (firstn k d)) as (v & E & Ev).
  { apply (for_inv (fun i v => v = be_value (firstn i d))); [reflexivity|].
    intros i v Hi ->. rewrite (aget_ok 0%N) by lia. cbn [bind].
    eexists; split; [reflexivity|].
    rewrite (firstn_S_nth 0%N) by lia. rewrite be_value_app.
    set (x := be_value (firstn i d)).
    assert (x < 2 ^ (8 * N.of_nat i))%N as Hx.
    { pose proof (be_value_bound (firstn i d)) as Hb. rewrite firstn_length_le in Hb by lia.
      apply Hb. rewrite <- (firstn_skipn i d) in Hd. apply Forall_app in Hd. tauto. }
    assert (nth i d 0%N < 256)%N as Hn.
    { unfold bytes_ok in Hd. rewrite Forall_forall in Hd. apply Hd, nth_In. lia. }
    rewrite (lor_add_disjoint _ _ 8).
    - rewrite ushl_spec. unfold SHL. change (2 ^ 8)%N with 256%N.
      rewrite N.mod_small; [reflexivity|].
      replace (8 * N.of_nat n)%N with (8 * N.of_nat i + (8 * N.of_nat n - 8 * N.of_nat i))%N by lia.
      rewrite N.pow_add_r. apply N.lt_le_trans with (2 ^ (8 * N.of_nat i) * 2 ^ 8)%N.
      + change (2 ^ 8)%N with 256%N. lia.
      + apply N.mul_le_mono_l. apply N.pow_le_mono_r; [discriminate|]. lia.
    - intros j Hj. apply shl_low, Hj.
    - exact Hn. }
  rewrite E. f_equal. rewrite Ev. f_equal. unfold k.
  destruct (Nat.min_spec n (length d)) as [[Hlt ->]|[Hge ->]]; [reflexivity|].
  rewrite !firstn_all2 by lia. reflexivity.
Qed.

(** ** programs *)

Section History.
  Context {C : HashClass} {hash : list N -> list N} {dom : list N -> Prop} {absorb done : list N -> Obj C}.
  Hypothesis HI : Implements C hash dom absorb done.

  Definition rel (a : aobj) (x : Obj C) : Prop :=
    bytes_ok (a_msg a) /\
    if a_done a then dom (a_msg a) /\ x = done (a_msg a) else x = absorb (a_msg a).

  Lemma rel_fresh : rel afresh (c_new C).
  Proof. split; [constructor|]. cbn. apply (im_new _ _ _ _ _ HI). Qed.

  Lemma step_ok o a a' w x :
    astep hash dom o a a' w -> rel a x -> exists y, exec_op C o x = Ok (y, w) /\ rel a' y.
  Proof.
    intros Hs [Hb Hr]. destruct Hs; cbn [a_msg a_done] in *.
    - subst x. eexists; split; [cbn [exec_op]; rewrite (im_add _ _ _ _ _ HI) by assumption; reflexivity|].
      split; cbn; [apply Forall_app; split; [assumption|apply H]|reflexivity].
    - subst x. eexists; split; [cbn [exec_op]; rewrite (im_fin _ _ _ _ _ HI) by assumption; reflexivity|].
      split; cbn; auto.
    - eexists; split; [reflexivity|]. destruct (a_done a).
      + destruct Hr as [Hd ->]. rewrite (im_reset_d _ _ _ _ _ HI) by assumption. apply rel_fresh.
      + subst x. rewrite (im_reset_a _ _ _ _ _ HI) by assumption. apply rel_fresh.
    - destruct Hr as [Hd ->]. eexists; split; [cbn [exec_op]; rewrite (im_read _ _ _ _ _ HI) by assumption; reflexivity|].
      split; cbn; auto.
    - destruct Hr as [Hd ->]. eexists; split; [cbn [exec_op]; rewrite (im_read _ _ _ _ _ HI) by assumption; reflexivity|].
      split; cbn; auto.
    - destruct Hr as [Hd ->]. pose proof (im_bytes _ _ _ _ _ HI m Hb Hd) as Hh.
      eexists; split; [cbn [exec_op]; rewrite (im_read _ _ _ _ _ HI) by assumption; cbn [bind];
        rewrite to_string_ok by assumption; reflexivity|].
      split; cbn; auto.
    - destruct Hr as [Hd ->]. pose proof (im_bytes _ _ _ _ _ HI m Hb Hd) as Hh.
      eexists; split; [cbn [exec_op]; rewrite (im_read _ _ _ _ _ HI) by assumption; cbn [bind];
        rewrite to_uint_ok by assumption; reflexivity|].
      split; cbn; auto.
    - destruct Hr as [Hd ->]. pose proof (im_bytes _ _ _ _ _ HI m Hb Hd) as Hh.
      eexists; split; [cbn [exec_op]; rewrite (im_read _ _ _ _ _ HI) by assumption; cbn [bind]; unfold std_hash;
        rewrite to_uint_ok by assumption; reflexivity|].
      split; cbn; auto.
  Qed.

  Lemma run_rel p s os s' :
    arun hash dom p s os s' -> forall st, (forall i, rel (s i) (st i)) ->
    exists st', exec C p st = Ok (os, st') /\ forall i, rel (s' i) (st' i).
  Proof.
    induction 1 as [s|i o rest s a' w os s' Hs Hr IH|i j rest s os s' Hr IH]; intros st Hst.
    - exists st; split; [reflexivity|exact Hst].
    - destruct (step_ok _ _ _ _ _ Hs (Hst i)) as (y & Ey & Ry).
      destruct (IH (put C st i y)) as (st' & E' & R').
      { intros k. unfold aput, put. destruct (k =? i); [exact Ry|apply Hst]. }
      exists st'; split; [|exact R']. cbn [exec]. rewrite Ey. cbn [bind fst snd]. rewrite E'. reflexivity.
    - destruct (IH (put C st i (st j))) as (st' & E' & R').
      { intros k. unfold aput, put. destruct (k =? i); apply Hst. }
      exists st'; split; [exact E'|exact R'].
  Qed.

  (** every promised observation is delivered, nothing else is observed, nothing fails *)
  Theorem history p os s' :
    arun hash dom p (fun _ => afresh) os s' ->
    exists st', exec C p (fun _ => c_new C) = Ok (os, st').
  Proof.
    intros H. destruct (run_rel _ _ _ _ H (fun _ => c_new C)) as (st' & E & _).
    - intros i. apply rel_fresh.
    - exists st'. exact E.
  Qed.

  Lemma foldM_absorb chunks : Forall span_ok chunks -> forall m, bytes_ok m ->
    foldM (c_add C) chunks (absorb m) = Ok (absorb (m ++ concat chunks)).
  Proof.
    induction 1 as [|d ch Hd Hch IH]; intros m Hm; cbn [foldM concat].
    - rewrite app_nil_r; reflexivity.
    - rewrite (im_add _ _ _ _ _ HI) by assumption. cbn [bind].
      rewrite IH by (apply Forall_app; split; [assumption|apply Hd]). now rewrite app_assoc.
  Qed.

  Lemma bytes_ok_concat chunks : Forall span_ok chunks -> bytes_ok (concat chunks).
  Proof. induction 1 as [|d l Hd]; cbn; [constructor|]. apply Forall_app; split; [apply Hd|assumption]. Qed.

  Theorem chunks_ok chunks : Forall span_ok chunks -> dom (concat chunks) ->
    hash_chunks C chunks = Ok (hash (concat chunks)).
  Proof.
    intros Hc Hd. unfold hash_chunks.
    rewrite (im_new _ _ _ _ _ HI), foldM_absorb by (auto; constructor). cbn [bind app].
    pose proof (bytes_ok_concat _ Hc).
    rewrite (im_fin _ _ _ _ _ HI) by assumption. cbn [bind].
    apply (im_read _ _ _ _ _ HI); assumption.
  Qed.
End History.

(** what each algorithm's proof file establishes, and its two observable consequences *)
Definition Correct (C : HashClass) (hash : list N -> list N) (dom : list N -> Prop) : Prop :=
  exists absorb done, Implements C hash dom absorb done.

Lemma correct_ext h1 h2 C dom : (forall m, bytes_ok m -> h1 m = h2 m) -> Correct C h1 dom -> Correct C h2 dom.
Proof.
  intros E (a & d & HI). exists a, d. destruct HI as [N A F R Ra Rd B].
  constructor; try assumption.
  - intros m Hm Hd. rewrite <- (E m Hm). auto.
  - intros m Hm Hd. rewrite <- (E m Hm). auto.
Qed.

Lemma correct_sub (d1 d2 : list N -> Prop) h1 h2 C :
  (forall m, d2 m -> d1 m) -> (forall m, bytes_ok m -> d2 m -> h1 m = h2 m) -> Correct C h1 d1 -> Correct C h2 d2.
Proof.
  intros Hd E (a & d & HI). exists a, d. destruct HI as [N A F R Ra Rd B].
  constructor; auto.
  - intros m Hm H2. rewrite <- (E m Hm H2). auto.
  - intros m Hm H2. rewrite <- (E m Hm H2). auto.
Qed.

Theorem correct_chunks C hash dom : Correct C hash dom ->
  forall chunks, Forall span_ok chunks -> dom (concat chunks) ->
  hash_chunks C chunks = Ok (hash (concat chunks)).
Proof. intros (a & d & HI). apply (chunks_ok HI). Qed.

Theorem correct_history C hash dom : Correct C hash dom ->
  forall p os s', arun hash dom p (fun _ => afresh) os s' ->
  exists st', exec C p (fun _ => c_new C) = Ok (os, st').
Proof. intros (a & d & HI). apply (history HI). Qed.
