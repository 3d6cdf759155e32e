(** sm3.h computes SM3. *)
From Coq Require Import List NArith Arith Bool Lia.
From Verif.Base Require Import Res CWord.
From Verif.Spec Require Import Words Client Merkle.
From Verif.Spec Require Sm3.
From Verif.Model Require Import Buffer Stream Api Call.
From Verif.Model.Gen Require Import Sm3Calls.
From Verif.Model Require Sm3.
From Verif.Proof Require Import Words Streaming Blocks Api MD Rounds Regs Class.
Import ListNotations.
Module S := Verif.Spec.Sm3.
Module M := Verif.Model.Sm3.
Local Open Scope N_scope.

Definition fn_of (t : nat) : fn := if Nat.ltb t 16 then sm3Round1 else sm3Round2.
Definition regs8 (k : nat) : list nat := regs_of 4 k ++ map (Nat.add 4) (regs_of 4 k).
Definition Trot (t : nat) : N := ROTL 32 (N.of_nat (t mod 32)) (S.T t).
Definition call_of (t : nat) : call fn := Call (fn_of t) (regs8 (t mod 4)) [Trot t; N.of_nat t].

Lemma calls_regular : calls = map call_of (seq 0 64).
Proof. vm_compute. reflexivity. Qed.

Lemma call8 f t a b c d e g h i x y z u :
  f [a; b; c; d; e; g; h; i] = Ok [(1, x); (3, y); (5, z); (7, u)]%nat ->
  call_regs f (regs8 (t mod 4)) (rotate (t mod 4) [a; b; c; d] ++ rotate (t mod 4) [e; g; h; i])
  = Ok (rotate (S t mod 4) [y; a; x; c] ++ rotate (S t mod 4) [u; e; z; h]).
Proof.
  intros E. rewrite <- !rotate4. unfold call_regs.
  destruct (mod4_cases t) as [H|[H|[H|H]]]; rewrite H; cbn; rewrite E; reflexivity.
Qed.

Lemma P0_ok x : bnd 32 x -> M.permutation0 x = S.P0 x.
Proof. intros H. unfold M.permutation0, S.P0. now rewrite !rotl_spec by (auto; discriminate). Qed.
Lemma P1_ok x : bnd 32 x -> M.permutation1 x = S.P1 x.
Proof. intros H. unfold M.permutation1, S.P1. now rewrite !rotl_spec by (auto; discriminate). Qed.
Lemma bnd_P0 x : bnd 32 x -> bnd 32 (S.P0 x).
Proof. intros H. unfold S.P0. repeat apply bnd_lxor; try apply bnd_ROTL; auto; discriminate. Qed.
Lemma bnd_P1 x : bnd 32 x -> bnd 32 (S.P1 x).
Proof. intros H. unfold S.P1. repeat apply bnd_lxor; try apply bnd_ROTL; auto; discriminate. Qed.

Definition list8 (v : S.vars) : list N := list4 (fst v) ++ list4 (snd v).
Definition rot8 (t : nat) (v : S.vars) : list N := rotate (t mod 4) (list4 (fst v)) ++ rotate (t mod 4) (list4 (snd v)).

(** m_v[i] ^= a..h *)
Lemma finish_ok h0 h1 h2 h3 h4 h5 h6 h7 (v : S.vars) :
  Forall (bnd 32) [h0; h1; h2; h3; h4; h5; h6; h7] -> Forall (bnd 32) (list8 v) ->
  let out := S.feed_forward [h0; h1; h2; h3; h4; h5; h6; h7] v in
  for_ 0 8 (fun i st =>
    let! s := aget st i in
    let! x := aget (list8 v) i in
    aset st i (N.lxor s x)) [h0; h1; h2; h3; h4; h5; h6; h7] = Ok out /\ words_ok 8 out.
Proof.
  intros Hh Hv. destruct v as [[[[a b] c] d] [[[e f] g] i]]. unfold list8 in *.
  cbn [fst snd list4 app] in *. inv_Forall. split.
  - cbn -[N.lxor]. do 2 f_equal; [apply N.lxor_comm|]. repeat (apply f_equal2; [apply N.lxor_comm|]). reflexivity.
  - split; [reflexivity|]. repeat constructor; auto using bnd_lxor.
Qed.

(** ** message expansion *)
Section Expand.
  Variables (blk tl : list N).
  Hypothesis Hlen : length blk = 64%nat.
  Hypothesis Hok : bytes_ok blk.
  Let Mw := be_words 4 blk.
  Let W := S.expand Mw.
  Local Notation w t := (nth t W 0).

  Lemma Mw_len : length Mw = 16%nat.
  Proof. apply be_words_length; [lia|exact Hlen]. Qed.
  Lemma Mw_bnd : Forall (bnd 32) Mw.
  Proof. apply (be_words_bnd 4 16); [lia|exact Hlen|exact Hok]. Qed.
  Lemma W_length : length W = 68%nat.
  Proof. unfold W, S.expand. rewrite extend_length, Mw_len. reflexivity. Qed.
  Lemma W_bnd : Forall (bnd 32) W.
  Proof.
    apply extend_Forall; [|exact Mw_bnd]. intros l Hl. unfold S.next_word.
    repeat (apply bnd_P1 || apply bnd_lxor || apply bnd_ROTL || apply bnd_back); auto; discriminate.
  Qed.
  Lemma w_bnd t : bnd 32 (w t).
  Proof. apply Forall_nth_bnd, W_bnd. Qed.

  Lemma w_rotl t n : n <= 32 -> rotl 32 (w t) n = ROTL 32 n (w t).
  Proof. intros H. apply rotl_spec; [exact H|apply w_bnd]. Qed.

  Lemma expand_ok : M.expand (blk ++ tl) = Ok W.
  Proof.
    pose proof W_length as HWl. unfold M.expand.
    destruct (for_inv (fun t x => x = filled 68 t W)
      (fun t x => let! v := load_be 4 (blk ++ tl) t in aset x t v) 16 0 (repeat 0 68)) as (x & E & ->).
    - now rewrite filled_0.
    - intros t x Ht ->. rewrite (load_be_ok 4 16) by (auto; lia). cbn [bind]. eexists. split; [|reflexivity].
      apply aset_filled; [lia|exact HWl|]. symmetry. unfold W, S.expand. apply extend_nth_l.
      pose proof Mw_len. unfold Mw in *. lia.
    - rewrite E. cbn [bind Nat.add]. clear E.
      match goal with |- for_ _ _ ?body _ = _ =>
        destruct (for_inv (fun t x => x = filled 68 t W) body 52 16 (filled 68 16 W)) as (x & E & ->) end.
      + reflexivity.
      + intros t x Ht ->. cbv beta. rewrite !aget_back_filled by lia. cbn [bind]. eexists. split; [|reflexivity].
        apply aset_filled; [lia|exact HWl|].
        assert (w t = S.next_word (firstn t W)) as ->
          by (pose proof Mw_len; exact (extend_nth 0 S.next_word 52 Mw t ltac:(lia))).
        unfold S.next_word. rewrite !back_firstn by lia.
        rewrite P1_ok by (auto using bnd_lxor, bnd_rotl, w_bnd).
        rewrite !w_rotl by lia. f_equal. f_equal. f_equal. generalize (w (t - 3)), (w (t - 9)), (w (t - 16)).
        intros. bitwise.
      + rewrite E. cbn [Nat.add]. now rewrite filled_all.
  Qed.

  (** ** rounds *)
  Definition FFm (t : nat) := if Nat.ltb t 16 then M.xor3 else M.maj.
  Definition GGm (t : nat) := if Nat.ltb t 16 then M.xor3 else M.ch.
  Definition lam (t : nat) : list N -> res (list (nat * N)) := M.round W (FFm t) (GGm t) (Trot t) t.

  Lemma exec_call_of t r : M.exec_call W (call_of t) r = call_regs (lam t) (regs8 (t mod 4)) r.
  Proof.
    unfold M.exec_call, call_of, lam, fn_of, FFm, GGm. cbn [c_args c_fn c_regs].
    destruct (Nat.ltb t 16); rewrite Nnat.Nat2N.id; reflexivity.
  Qed.


  Lemma step_ok t v : (t < 64)%nat -> Forall (bnd 32) (list8 v) ->
    call_regs (lam t) (regs8 (t mod 4)) (rot8 t v) = Ok (rot8 (S t) (S.step W v t))
    /\ Forall (bnd 32) (list8 (S.step W v t)).
  Proof.
    intros Ht Hv. destruct v as [[[[A B] C] D] [[[E F] G] H]]. unfold list8, rot8 in *. cbn [fst snd list4 app] in *.
    inv_Forall. pose proof W_length as HWl. unfold S.step.
    assert (FFm t A B C = S.FF t A B C) as HF.
    { unfold FFm, S.FF. destruct (Nat.ltb t 16); [reflexivity|]. unfold M.maj. bitwise. }
    assert (GGm t E F G = S.GG t E F G) as HG.
    { unfold GGm, S.GG. destruct (Nat.ltb t 16); [reflexivity|]. unfold M.ch. rewrite N.lxor_comm. apply ch_alt_or; assumption. }
    cbv zeta. cbn [fst snd list4]. fold (Trot t). split.
    - apply call8. unfold lam, M.round. rewrite !(aget_ok 0) by lia. cbn [bind]. rewrite HF, HG.
      rewrite !(rotl_spec 32 A), !(rotl_spec 32 B), !(rotl_spec 32 F) by (auto; discriminate).
      rewrite rotl_spec by (auto with wb; discriminate).
      rewrite P0_ok by (auto with wb).
      assert (uadd 32 (uadd 32 (ROTL 32 12 A) E) (Trot t) = sum 32 [ROTL 32 12 A; E; Trot t]) as -> by sum_eq 32.
      do 2 f_equal. apply f_equal2; [f_equal; sum_eq 32|]. apply f_equal2; [reflexivity|].
      apply f_equal2; [|reflexivity]. do 2 f_equal. sum_eq 32.
    - cbn [app]. repeat constructor; auto; try apply bnd_sum; try apply bnd_P0; try apply bnd_ROTL; auto; try apply bnd_sum; discriminate.
  Qed.

  Lemma rounds_ok v : Forall (bnd 32) (list8 v) ->
    let x := fold_left (S.step W) (seq 0 64) v in
    foldM (M.exec_call W) calls (list8 v) = Ok (list8 x) /\ Forall (bnd 32) (list8 x).
  Proof.
    intros Hv. cbv zeta. rewrite calls_regular, foldM_map, foldM_seq.
    destruct (for_inv (fun t r => let x := fold_left (S.step W) (seq 0 t) v in
        r = rot8 t x /\ Forall (bnd 32) (list8 x))
      (fun t => M.exec_call W (call_of t)) 64 0 (list8 v)) as (r & E & Hr & Hb).
    - cbv zeta. split; [|exact Hv]. unfold rot8, list8. change (0 mod 4)%nat with 0%nat. unfold rotate.
      cbn [skipn firstn seq fold_left]. now rewrite !app_nil_r.
    - intros t r Ht. cbv zeta. intros (-> & Hb). rewrite fold_left_seq_S, exec_call_of.
      destruct (step_ok t _ ltac:(lia) Hb) as [E Hb']. eexists. split; [exact E|]. split; [reflexivity|exact Hb'].
    - rewrite E. cbv zeta in *. rewrite Hr. split; [|exact Hb]. f_equal. unfold rot8, list8.
      change ((0 + 64) mod 4)%nat with 0%nat. unfold rotate. cbn [skipn firstn]. now rewrite !app_nil_r.
  Qed.

  Lemma compress_ok h : words_ok 8 h ->
    M.compress (blk ++ tl) h = Ok (S.compress h blk) /\ words_ok 8 (S.compress h blk).
  Proof.
    intros [Hl Hh]. destruct (list_len8 h Hl) as (h0 & h1 & h2 & h3 & h4 & h5 & h6 & h7 & ->).
    destruct (rounds_ok ((h0, h1, h2, h3), (h4, h5, h6, h7)) Hh) as [E Eb].
    unfold M.compress. rewrite expand_ok. rewrite bind_ok.
    change (mapM (aget [h0; h1; h2; h3; h4; h5; h6; h7]) [0; 1; 2; 3; 4; 5; 6; 7]%nat)
      with (Ok (list8 ((h0, h1, h2, h3), (h4, h5, h6, h7)))). rewrite bind_ok.
    rewrite E. rewrite bind_ok.
    unfold S.compress. exact (finish_ok h0 h1 h2 h3 h4 h5 h6 h7 _ Hh Eb).
  Qed.
End Expand.

Theorem sm3_correct dbg : Correct (M.cls dbg) S.sm3 (fun _ => True).
Proof.
  apply (class_be 8 dbg M.compress M.iv S.compress); [|intros; apply compress_ok; assumption|reflexivity].
  split; [reflexivity|]. apply Forall_bndb. reflexivity.
Qed.
