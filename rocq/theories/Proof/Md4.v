(** md4.h computes MD4. *)
From Coq Require Import List NArith Arith Bool Lia.
From Verif.Base Require Import Res CWord.
From Verif.Spec Require Import Words Client Merkle.
From Verif.Spec Require Md4.
From Verif.Model Require Import Buffer Stream Api Call.
From Verif.Model.Gen Require Import Md4Calls.
From Verif.Model Require Md4.
From Verif.Proof Require Import Words Streaming Blocks Api MD Rounds Regs Class.
Import ListNotations.
Module S := Verif.Spec.Md4.
Module M := Verif.Model.Md4.
Local Open Scope N_scope.

(** the call that operation t should be *)
Definition fn_of (t : nat) : fn :=
  match (t / 16)%nat with 0%nat => round1 | 1%nat => round2 | _ => round3 end.
Definition call_of (t : nat) : call fn :=
  Call (fn_of t) (regs_of 4 (t mod 4)) [N.of_nat (nth t S.order 0%nat); S.shift t].

Lemma calls_regular : calls = map call_of (seq 0 48).
Proof. vm_compute. reflexivity. Qed.

Lemma order_bound t : (t < 48)%nat -> (nth t S.order 0 < 16)%nat.
Proof.
  intros H. assert (forallb (fun t => nth t S.order 0 <? 16)%nat (seq 0 48) = true) as E by reflexivity.
  rewrite forallb_forall in E. apply Nat.ltb_lt, E, in_seq. lia.
Qed.
Lemma shift_bound t : (t < 48)%nat -> S.shift t <= 32.
Proof.
  intros H. assert (forallb (fun t => S.shift t <=? 32) (seq 0 48) = true) as E by reflexivity.
  rewrite forallb_forall in E. apply N.leb_le, E, in_seq. lia.
Qed.

Section Compress.
  Variables (blk tl : list N).
  Hypothesis Hlen : length blk = 64%nat.
  Hypothesis Hok : bytes_ok blk.
  Let X := le_words 4 blk.

  (** the lambda called in operation t *)
  Definition lam (t : nat) : list N -> res (list (nat * N)) :=
    let k := nth t S.order 0%nat in
    match fn_of t with
    | round1 => M.round1 (blk ++ tl) k (S.shift t)
    | round2 => M.round23 (blk ++ tl) M.g 0x5A827999 k (S.shift t)
    | round3 => M.round23 (blk ++ tl) M.h 0x6ED9EBA1 k (S.shift t)
    end.

  Lemma exec_call_of t r : M.exec_call (blk ++ tl) (call_of t) r = call_regs (lam t) (regs_of 4 (t mod 4)) r.
  Proof.
    unfold M.exec_call, call_of, lam. cbn [c_args c_fn c_regs]. rewrite Nnat.Nat2N.id.
    destruct (fn_of t); reflexivity.
  Qed.

  Definition Gt (t : nat) (a b c d : N) : N :=
    ROTL 32 (S.shift t) (sum 32 [a; S.func t b c d; nth (nth t S.order 0%nat) X 0; S.const t]).

  Lemma lam_ok t a b c d : (t < 48)%nat -> Forall (bnd 32) [a; b; c; d] ->
    lam t [a; b; c; d] = Ok [(0%nat, Gt t a b c d)] /\ bnd 32 (Gt t a b c d).
  Proof.
    intros Ht Hb. inv_Forall. pose proof (order_bound t Ht) as Ho. pose proof (shift_bound t Ht) as Hs.
    assert (load_le 4 (blk ++ tl) (nth t S.order 0%nat) = Ok (nth (nth t S.order 0%nat) X 0)) as HX
      by (apply (load_le_ok 4 16); auto; lia).
    split.
    - unfold lam, fn_of, Gt, S.func, S.const. clearbody X. destruct (t / 16)%nat as [|[|]]; cbn -[rotl uadd ROTL sum M.f M.g M.h S.F S.G S.H load_le nth];
        unfold M.round1, M.round23; rewrite HX; cbn [bind]; do 3 f_equal;
        rewrite rotl_spec by (auto with wb); f_equal.
      + replace (M.f b c d) with (S.F b c d) by (symmetry; apply ch_alt_or; assumption). sum_eq 32.
      + replace (M.g b c d) with (S.G b c d) by (unfold M.g, S.G; bitwise). sum_eq 32.
      + change (M.h b c d) with (S.H b c d). sum_eq 32.
    - unfold Gt. rewrite <- rotl_spec by (auto with wb). auto with wb.
  Qed.

  Lemma compress_ok h : words_ok 4 h ->
    M.compress (blk ++ tl) h = Ok (S.compress h blk) /\ words_ok 4 (S.compress h blk).
  Proof.
    intros [Hl Hh]. destruct (list_len4 h Hl) as (h0 & h1 & h2 & h3 & ->).
    destruct (rounds4 lam (S.step X) Gt 48) with (v := (h0, h1, h2, h3)) as [E Eb].
    { intros. reflexivity. }
    { intros. apply lam_ok; assumption. }
    { exact Hh. }
    unfold M.compress, S.compress, S.vars. cbn [aget nth_error bind]. rewrite calls_regular, foldM_map, foldM_seq.
    rewrite (for_ext _ (fun t => call_regs (lam t) (regs_of 4 (t mod 4)))) by (intros; apply exec_call_of).
    cbn [list4] in E. rewrite E. cbn [bind]. fold X.
    match goal with |- context [list4 ?V] => destruct V as [[[a b] c] d] end.
    change (48 mod 4)%nat with 0%nat. split.
    - cbn -[uadd add]. rewrite !uadd_spec.
      rewrite (add_comm _ a), (add_comm _ b), (add_comm _ c), (add_comm _ d). reflexivity.
    - split; [reflexivity|]. repeat constructor; apply bnd_wadd.
  Qed.
End Compress.

Theorem md4_correct dbg : Correct (M.cls dbg) S.md4 (fun _ => True).
Proof.
  apply (class_le 4 dbg M.compress M.iv S.compress); [|intros; apply compress_ok; assumption|reflexivity].
  split; [reflexivity|]. apply Forall_bndb. reflexivity.
Qed.
