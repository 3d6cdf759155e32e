(** md5.h computes MD5. *)
From Coq Require Import List NArith Arith Bool Lia.
From Verif.Base Require Import Res CWord.
From Verif.Spec Require Import Words Client Merkle.
From Verif.Spec Require Md5.
From Verif.Model Require Import Buffer Stream Api Call.
From Verif.Model.Gen Require Import Md5Calls.
From Verif.Model Require Md5.
From Verif.Proof Require Import Words Streaming Blocks Api MD Rounds Regs Class.
Import ListNotations.
Module S := Verif.Spec.Md5.
Module M := Verif.Model.Md5.
Local Open Scope N_scope.

(** the call that operation t should be; the constants are compared with the sine table *)
Definition fnum (t : nat) : N := N.of_nat (t / 16).
Definition call_of (t : nat) : call fn :=
  Call round (regs_of 4 (t mod 4)) [fnum t; N.of_nat (S.index t); S.shift t; nth t S.T 0].

Lemma calls_regular : calls = map call_of (seq 0 64).
Proof. vm_compute. reflexivity. Qed.

Lemma index_bound t : (t < 64)%nat -> (S.index t < 16)%nat.
Proof.
  intros H. assert (forallb (fun t => S.index t <? 16)%nat (seq 0 64) = true) as E by reflexivity.
  rewrite forallb_forall in E. apply Nat.ltb_lt, E, in_seq. lia.
Qed.
Lemma shift_bound t : (t < 64)%nat -> S.shift t <= 32.
Proof.
  intros H. assert (forallb (fun t => S.shift t <=? 32) (seq 0 64) = true) as E by reflexivity.
  rewrite forallb_forall in E. apply N.leb_le, E, in_seq. lia.
Qed.

Section Compress.
  Variables (blk tl : list N).
  Hypothesis Hlen : length blk = 64%nat.
  Hypothesis Hok : bytes_ok blk.
  Let X := le_words 4 blk.

  Definition mfunc (t : nat) : N -> N -> N -> N :=
    match (t / 16)%nat with 0%nat => M.f | 1%nat => M.g | 2%nat => M.h | _ => M.ii end.
  (** the lambda called in operation t *)
  Definition lam (t : nat) : list N -> res (list (nat * N)) :=
    M.round (blk ++ tl) (mfunc t) (S.index t) (S.shift t) (nth t S.T 0).

  Lemma exec_call_of t r : (t < 64)%nat ->
    M.exec_call (blk ++ tl) (call_of t) r = call_regs (lam t) (regs_of 4 (t mod 4)) r.
  Proof.
    intros Ht. unfold M.exec_call, call_of, lam, mfunc, fnum. cbn [c_args c_fn c_regs]. rewrite Nnat.Nat2N.id.
    assert (t / 16 < 4)%nat as H4 by (apply Nat.div_lt_upper_bound; lia).
    destruct (t / 16)%nat as [|[|[|[|]]]]; try lia; reflexivity.
  Qed.

  Definition Gt (t : nat) (a b c d : N) : N :=
    add 32 b (ROTL 32 (S.shift t) (sum 32 [a; S.func t b c d; nth (S.index t) X 0; nth t S.T 0])).

  Lemma func_ok t b c d : bnd 32 b -> bnd 32 c -> bnd 32 d -> mfunc t b c d = S.func t b c d.
  Proof.
    intros Hb Hc Hd. unfold mfunc, S.func. destruct (t / 16)%nat as [|[|[|]]].
    - apply ch_alt_or; assumption.
    - unfold M.g, S.G. rewrite (N.land_comm c), land_compl by assumption. bitwise.
    - reflexivity.
    - unfold M.ii, S.I. rewrite unot_spec by assumption. reflexivity.
  Qed.

  Lemma lam_ok t a b c d : (t < 64)%nat -> Forall (bnd 32) [a; b; c; d] ->
    lam t [a; b; c; d] = Ok [(0%nat, Gt t a b c d)] /\ bnd 32 (Gt t a b c d).
  Proof.
    intros Ht Hb. inv_Forall. pose proof (index_bound t Ht) as Ho. pose proof (shift_bound t Ht) as Hs.
    assert (load_le 4 (blk ++ tl) (S.index t) = Ok (nth (S.index t) X 0)) as HX
      by (apply (load_le_ok 4 16); auto; lia).
    split; [|apply bnd_wadd]. unfold lam, Gt, M.round. generalize (nth t S.T 0); intros T. clearbody X.
    rewrite HX. cbn [bind]. rewrite func_ok by assumption. do 3 f_equal.
    rewrite uadd_spec. f_equal. rewrite rotl_spec by (auto with wb). f_equal. sum_eq 32.
  Qed.

  Lemma compress_ok h : words_ok 4 h ->
    M.compress (blk ++ tl) h = Ok (S.compress h blk) /\ words_ok 4 (S.compress h blk).
  Proof.
    intros [Hl Hh]. destruct (list_len4 h Hl) as (h0 & h1 & h2 & h3 & ->).
    destruct (rounds4 lam (S.step X) Gt 64) with (v := (h0, h1, h2, h3)) as [E Eb].
    { intros. reflexivity. }
    { intros. apply lam_ok; assumption. }
    { exact Hh. }
    unfold M.compress, S.compress, S.vars. cbn [aget nth_error bind]. rewrite calls_regular, foldM_map, foldM_seq.
    rewrite (for_ext _ (fun t => call_regs (lam t) (regs_of 4 (t mod 4)))) by (intros; apply exec_call_of; lia).
    cbn [list4] in E. rewrite E. cbn [bind]. fold X.
    match goal with |- context [list4 ?V] => destruct V as [[[a b] c] d] end.
    change (64 mod 4)%nat with 0%nat. split.
    - cbn -[uadd add]. rewrite !uadd_spec.
      rewrite (add_comm _ a), (add_comm _ b), (add_comm _ c), (add_comm _ d). reflexivity.
    - split; [reflexivity|]. repeat constructor; apply bnd_wadd.
  Qed.
End Compress.

Theorem md5_correct dbg : Correct (M.cls dbg) S.md5 (fun _ => True).
Proof.
  apply (class_le 4 dbg M.compress M.iv S.compress); [|intros; apply compress_ok; assumption|reflexivity].
  split; [reflexivity|]. apply Forall_bndb. reflexivity.
Qed.
