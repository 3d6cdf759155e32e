(** sha1.h computes SHA-1. *)
From Coq Require Import List NArith Arith Bool Lia.
From Verif.Base Require Import Res CWord.
From Verif.Spec Require Import Words Client Merkle.
From Verif.Spec Require Sha1.
From Verif.Model Require Import Buffer Stream Api Call.
From Verif.Model.Gen Require Import Sha1Calls.
From Verif.Model Require Sha1.
From Verif.Proof Require Import Words Streaming Blocks Api MD Rounds.
Import ListNotations.
Module S := Verif.Spec.Sha1.
Module M := Verif.Model.Sha1.
Local Open Scope N_scope.

(** ** message schedule *)

Section Schedule.
  Variable Mw : list N.
  Hypothesis Hlen : length Mw = 16%nat.
  Hypothesis Hb : Forall (bnd 32) Mw.
  Let W := S.schedule Mw.
  Local Notation w t := (nth t W 0).

  Lemma W_length : length W = 80%nat.
  Proof. unfold W, S.schedule. rewrite extend_length, Hlen. reflexivity. Qed.

  Lemma bnd_ROTL w n x : n <= w -> bnd w x -> bnd w (ROTL w n x).
  Proof. intros Hn Hx. rewrite <- rotl_spec by assumption. apply bnd_rotl, Hx. Qed.

  Lemma bnd_back l i : Forall (bnd 32) l -> bnd 32 (back l i).
  Proof. intros H. apply Forall_nth_bnd, H. Qed.

  Lemma W_bnd : Forall (bnd 32) W.
  Proof.
    apply extend_Forall; [|exact Hb]. intros l Hl.
    apply bnd_ROTL; [discriminate|]. auto 6 using bnd_lxor, bnd_back.
  Qed.

  Lemma w_bnd t : bnd 32 (w t).
  Proof. apply Forall_nth_bnd, W_bnd. Qed.

  Lemma W_first t : (t < 16)%nat -> w t = nth t Mw 0.
  Proof. intros H. unfold W, S.schedule. apply extend_nth_l. lia. Qed.

  Lemma W_std t : (16 <= t < 80)%nat ->
    w t = rotl 32 (N.lxor (N.lxor (N.lxor (w (t - 3)) (w (t - 8))) (w (t - 14))) (w (t - 16))) 1.
  Proof.
    intros H.
    assert (w t = S.next_word (firstn t W)) as ->
      by (exact (extend_nth 0 S.next_word 64 Mw t ltac:(rewrite Hlen; lia))).
    unfold S.next_word. rewrite !back_firstn by (rewrite ?W_length; lia).
    symmetry. apply rotl_spec; [discriminate|]. auto 6 using bnd_lxor, w_bnd.
  Qed.

  Lemma rot2 x y z v : bnd 32 x -> bnd 32 y -> bnd 32 z -> bnd 32 v ->
    rotl 32 (N.lxor (N.lxor (N.lxor (rotl 32 x 1) (rotl 32 y 1)) (rotl 32 z 1)) (rotl 32 v 1)) 1
    = rotl 32 (N.lxor (N.lxor (N.lxor x y) z) v) 2.
  Proof.
    intros. rewrite <- !rotl_lxor by (try lia; auto using bnd_lxor).
    rewrite rotl_rotl by (try reflexivity; auto 6 using bnd_lxor). reflexivity.
  Qed.

  Lemma W_alt t : (32 <= t < 80)%nat ->
    w t = rotl 32 (N.lxor (N.lxor (N.lxor (w (t - 6)) (w (t - 16))) (w (t - 28))) (w (t - 32))) 2.
  Proof.
    intros H. match goal with |- _ = ?r => set (R := r) end. rewrite (W_std t) by lia.
    rewrite (W_std (t - 3)), (W_std (t - 8)), (W_std (t - 14)), (W_std (t - 16)) by lia.
    replace (t - 3 - 3)%nat with (t - 6)%nat by lia.
    replace (t - 3 - 8)%nat with (t - 11)%nat by lia.
    replace (t - 3 - 14)%nat with (t - 17)%nat by lia.
    replace (t - 3 - 16)%nat with (t - 19)%nat by lia.
    replace (t - 8 - 3)%nat with (t - 11)%nat by lia.
    replace (t - 8 - 8)%nat with (t - 16)%nat by lia.
    replace (t - 8 - 14)%nat with (t - 22)%nat by lia.
    replace (t - 8 - 16)%nat with (t - 24)%nat by lia.
    replace (t - 14 - 3)%nat with (t - 17)%nat by lia.
    replace (t - 14 - 8)%nat with (t - 22)%nat by lia.
    replace (t - 14 - 14)%nat with (t - 28)%nat by lia.
    replace (t - 14 - 16)%nat with (t - 30)%nat by lia.
    replace (t - 16 - 3)%nat with (t - 19)%nat by lia.
    replace (t - 16 - 8)%nat with (t - 24)%nat by lia.
    replace (t - 16 - 14)%nat with (t - 30)%nat by lia.
    replace (t - 16 - 16)%nat with (t - 32)%nat by lia.
    rewrite rot2 by (auto 6 using bnd_lxor, w_bnd).
    unfold R. f_equal. bitwise.
  Qed.
End Schedule.

(** ** rounds *)

(** the call that round t should be *)
Definition fn_of (t : nat) : fn :=
  if (t <? 16)%nat then sha1Round1 else if (t <? 20)%nat then sha1Round1a
  else if (t <? 32)%nat then sha1Round2 else if (t <? 40)%nat then sha1Round2a
  else if (t <? 60)%nat then sha1Round3 else sha1Round4.
Definition regs_of (k : nat) : list nat := map (fun j => ((j + 5 - k) mod 5)%nat) [0; 1; 2; 3; 4]%nat.
Definition call_of (t : nat) : call fn := Call (fn_of t) (regs_of (t mod 5)) [N.of_nat t].

Lemma calls_regular : calls = map call_of (seq 0 80).
Proof. vm_compute. reflexivity. Qed.

Definition to_list (v : S.vars) : list N := let '(a, b, c, d, e) := v in [a; b; c; d; e].

Section Compress.
  Variables (blk tl : list N).
  Hypothesis Hlen : length blk = 64%nat.
  Hypothesis Hok : bytes_ok blk.
  Let Mw := be_words 4 blk.
  Let W := S.schedule Mw.

  Lemma Mw_len : length Mw = 16%nat.
  Proof. apply be_words_length; [lia|exact Hlen]. Qed.
  Lemma Mw_bnd : Forall (bnd 32) Mw.
  Proof. apply (be_words_bnd 4 16); [lia|exact Hlen|exact Hok]. Qed.

  Definition inv (t : nat) (v : S.vars) (l : M.locals) : Prop :=
    l = (rotate (t mod 5) (to_list v), filled 80 t W).

  (** effect of one macro on registers, for any round function and word source *)
  Lemma round_ok Wx F K t v l f' K' :
    (t < 80)%nat -> inv t v l -> Forall (bnd 32) (to_list v) ->
    Wx t (filled 80 t W) = Ok (nth t W 0) ->
    (forall x y z, bnd 32 x -> bnd 32 y -> bnd 32 z -> F x y z = f' x y z) -> K = K' ->
    exists l', (match regs_of (t mod 5) with
                | [a; b; c; d; e] => M.round Wx F K a b c d e t l
                | _ => Ub OutOfFuel end) = Ok l' /\
      inv (S t) (let '(a, b, c, d, e) := v in
                 (sum 32 [ROTL 32 5 a; f' b c d; e; K'; nth t W 0], a, ROTL 32 30 b, c, d)) l'.
  Proof.
    intros Ht -> Hv HW HF ->. destruct v as [[[[a b] c] d] e]. cbn [to_list] in *. inv_Forall.
    unfold inv. rewrite (mod_succ t 5) by lia.
    assert (length W = 80%nat) as HWl by (apply W_length, Mw_len).
    assert (aset (filled 80 t W) t (nth t W 0) = Ok (filled 80 (S t) W)) as Hset
      by (apply aset_filled; auto).
    assert (aget (filled 80 (S t) W) t = Ok (nth t W 0)) as Hget by (apply aget_filled; lia).
    assert (uadd 32 (uadd 32 (uadd 32 (uadd 32 (rotl 32 a 5) (F b c d)) e) (nth t W 0)) K'
            = sum 32 [ROTL 32 5 a; f' b c d; e; K'; nth t W 0]) as HT.
    { rewrite HF by assumption. rewrite rotl_spec by (auto; discriminate). sum_eq 32. }
    clearbody W.
    destruct (mod5_cases t) as [E|[E|[E|[E|E]]]]; rewrite E;
      cbn -[uadd rotl sum ROTL filled nth]; rewrite HW; cbn [bind]; rewrite Hset; cbn -[uadd rotl sum ROTL filled nth];
      rewrite Hget; cbn -[uadd rotl sum ROTL filled nth];
      (eexists; split; [reflexivity|]); rewrite HT, rotl_spec by (auto; discriminate); reflexivity.
  Qed.

  Lemma call_ok t v l :
    (t < 80)%nat -> inv t v l -> Forall (bnd 32) (to_list v) ->
    exists l', M.exec_call (blk ++ tl) (call_of t) l = Ok l' /\ inv (S t) (S.step W v t) l'.
  Proof.
    intros Ht Hi Hv.
    assert (length W = 80%nat) as HWl by (apply W_length, Mw_len).
    assert (forall x, M.exec_call (blk ++ tl) (Call x (regs_of (t mod 5)) [N.of_nat t]) l =
       match regs_of (t mod 5) with
       | [a; b; c; d; e] =>
         match x with
        | sha1Round1 => M.round (M.w_load (blk ++ tl)) M.f1 0x5A827999 a b c d e t l
        | sha1Round1a => M.round M.w_std M.f1 0x5A827999 a b c d e t l
        | sha1Round2 => M.round M.w_std M.f2 0x6ED9EBA1 a b c d e t l
        | sha1Round2a => M.round M.w_alt M.f2 0x6ED9EBA1 a b c d e t l
        | sha1Round3 => M.round M.w_alt M.f3 0x8F1BBCDC a b c d e t l
        | sha1Round4 => M.round M.w_alt M.f2 0xCA62C1D6 a b c d e t l
         end
       | _ => Ub OutOfFuel end) as Hex.
    { intros x. unfold M.exec_call. cbn [c_regs c_args c_fn]. rewrite Nnat.Nat2N.id. reflexivity. }
    unfold call_of. rewrite Hex. clear Hex.
    assert (Hload : (t < 16)%nat -> M.w_load (blk ++ tl) t (filled 80 t W) = Ok (nth t W 0)).
    { intros H. unfold M.w_load. rewrite (load_be_ok 4 16) by (auto; lia). f_equal.
      symmetry. apply W_first; [exact Mw_len|exact H]. }
    assert (Hstd : (16 <= t)%nat -> M.w_std t (filled 80 t W) = Ok (nth t W 0)).
    { intros H. unfold M.w_std. rewrite !aget_back_filled by lia. cbn [bind]. f_equal.
      symmetry. apply W_std; [exact Mw_len|exact Mw_bnd|lia]. }
    assert (Halt : (32 <= t)%nat -> M.w_alt t (filled 80 t W) = Ok (nth t W 0)).
    { intros H. unfold M.w_alt. rewrite !aget_back_filled by lia. cbn [bind]. f_equal.
      symmetry. apply W_alt; [exact Mw_len|exact Mw_bnd|lia]. }
    assert (F1 : forall x y z, bnd 32 x -> bnd 32 y -> bnd 32 z -> M.f1 x y z = S.Ch x y z)
      by (intros; apply ch_alt; assumption).
    assert (F2 : forall x y z, bnd 32 x -> bnd 32 y -> bnd 32 z -> M.f2 x y z = S.Parity x y z)
      by reflexivity.
    assert (F3 : forall x y z, bnd 32 x -> bnd 32 y -> bnd 32 z -> M.f3 x y z = S.Maj x y z)
      by (intros; apply maj_alt2).
    unfold S.step, S.f, S.K, fn_of.
    destruct (Nat.ltb_spec t 16).
    { destruct (Nat.ltb_spec t 20); [|lia]. eapply round_ok; eauto. }
    destruct (Nat.ltb_spec t 20).
    { eapply round_ok; eauto. }
    destruct (Nat.ltb_spec t 32).
    { destruct (Nat.ltb_spec t 40); [|lia]. eapply round_ok; eauto. }
    destruct (Nat.ltb_spec t 40).
    { eapply round_ok; eauto. }
    destruct (Nat.ltb_spec t 60); eapply round_ok; eauto; apply Halt; lia.
  Qed.

  Lemma step_bnd v t : Forall (bnd 32) (to_list v) -> Forall (bnd 32) (to_list (S.step W v t)).
  Proof.
    destruct v as [[[[a b] c] d] e]. cbn [to_list S.step]. intros H. inv_Forall.
    repeat constructor; auto with wb. apply bnd_ROTL; [discriminate|assumption].
  Qed.

  Lemma rounds_ok v : Forall (bnd 32) (to_list v) ->
    foldM (M.exec_call (blk ++ tl)) calls (to_list v, repeat 0 80)
    = Ok (to_list (fold_left (S.step W) (seq 0 80) v), W) /\
    Forall (bnd 32) (to_list (fold_left (S.step W) (seq 0 80) v)).
  Proof.
    intros Hv. rewrite calls_regular, foldM_map, foldM_seq.
    destruct (for_inv (fun t l => let s := fold_left (S.step W) (seq 0 t) v in
                inv t s l /\ Forall (bnd 32) (to_list s))
      (fun t => M.exec_call (blk ++ tl) (call_of t)) 80 0 (to_list v, repeat 0 80)) as (l & E & Hi & Hb).
    - cbn [seq fold_left]. split; [|exact Hv]. unfold inv. rewrite filled_0. destruct v as [[[[a b] c] d] e]. reflexivity.
    - intros t l Ht [Hi Hb]. destruct (call_ok t _ l ltac:(lia) Hi Hb) as (l' & E & Hi').
      exists l'. cbv zeta. rewrite fold_left_seq_S. split; [exact E|split; [exact Hi'|apply step_bnd, Hb]].
    - rewrite E. cbn [Nat.add] in *. split; [|exact Hb]. rewrite Hi. f_equal.
      rewrite filled_all by (apply W_length, Mw_len). f_equal.
      change (80 mod 5)%nat with 0%nat. unfold rotate. cbn [skipn firstn]. apply app_nil_r.
  Qed.

  Definition inv_state (h : list N) : Prop := length h = 5%nat /\ Forall (bnd 32) h.

  Lemma compress_ok h : inv_state h ->
    M.compress (blk ++ tl) h = Ok (S.compress h blk) /\ inv_state (S.compress h blk).
  Proof.
    intros [Hl Hh]. destruct (list_len5 h Hl) as (h0 & h1 & h2 & h3 & h4 & ->).
    destruct (rounds_ok (h0, h1, h2, h3, h4)) as [E Eb]; [exact Hh|].
    unfold M.compress, S.compress. cbn [to_list] in E. cbn [aget nth_error bind]. rewrite E. cbn [bind].
    fold Mw. fold W. destruct (fold_left (S.step W) (seq 0 80) (h0, h1, h2, h3, h4)) as [[[[a b] c] d] e].
    cbn -[uadd add]. rewrite !uadd_spec. split.
    - rewrite (add_comm _ a), (add_comm _ b), (add_comm _ c), (add_comm _ d), (add_comm _ e). reflexivity.
    - split; [reflexivity|]. repeat constructor; apply bnd_wadd.
  Qed.
End Compress.

Lemma toArray_ok h : inv_state h -> M.toArray h = Ok (flat_map (be_bytes 4) h) /\
  bytes_ok (flat_map (be_bytes 4) h).
Proof.
  intros [Hl _]. destruct (list_len5 h Hl) as (h0 & h1 & h2 & h3 & h4 & ->).
  unfold M.toArray. rewrite (flat_map_ext _ (be_bytes 4)) by apply word_bytes_be_ok. split.
  - apply store_array_eq. cbn [flat_map]. rewrite !app_length, !be_bytes_length. reflexivity.
  - apply bytes_ok_flat_map, be_bytes_ok.
Qed.

Theorem sha1_correct dbg : Correct (M.cls dbg) S.sha1 (fun _ => True).
Proof.
  do 2 eexists.
  apply (md_implements 64 dbg 128 write_len_be (be_bytes 8) M.compress M.iv M.toArray
           S.compress (flat_map (be_bytes 4)) inv_state).
  - lia.
  - reflexivity.
  - reflexivity.
  - apply write_len_be_ok.
  - apply be_bytes_length.
  - apply be_bytes_ok.
  - apply (be_bytes_mod 8).
  - split; [reflexivity|]. repeat constructor.
  - intros blk tl h Hh Hl Hb. apply compress_ok; assumption.
  - apply toArray_ok.
Qed.

Theorem sha1_chunks dbg chunks : Forall span_ok chunks ->
  hash_chunks (M.cls dbg) chunks = Ok (S.sha1 (concat chunks)).
Proof. intros H. exact (correct_chunks _ _ _ (sha1_correct dbg) chunks H I). Qed.

Theorem sha1_history dbg p os s' :
  arun S.sha1 (fun _ => True) p (fun _ => afresh) os s' ->
  exists st', exec (M.cls dbg) p (fun _ => c_new (M.cls dbg)) = Ok (os, st').
Proof. apply (correct_history _ _ _ (sha1_correct dbg)). Qed.
