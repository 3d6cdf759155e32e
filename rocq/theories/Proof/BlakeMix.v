(** The unrolled blakeMix calls compute the rounds of BLAKE and BLAKE2. *)
From Coq Require Import List NArith Arith Bool Lia.
From Verif.Base Require Import Res CWord.
From Verif.Spec Require Import Words.
From Verif.Spec Require BlakeCore.
From Verif.Model Require Import Call BlakeMix.
From Verif.Proof Require Import Words Rounds.
Import ListNotations.
Module S := Verif.Spec.BlakeCore.
Local Open Scope N_scope.

Lemma put_upd i x l : S.put i x l = upd l i x.
Proof. revert i; induction l as [|h t IH]; intros [|i]; cbn; auto. now rewrite IH. Qed.

Lemma Forall_upd {A} (P : A -> Prop) l i x : Forall P l -> P x -> Forall P (upd l i x).
Proof.
  intros H Hx. revert i; induction H as [|h t Hh Ht IH]; intros [|i]; cbn; auto.
Qed.

Lemma bnd_ROTR w n x : n <= w -> bnd w x -> bnd w (ROTR w n x).
Proof. intros Hn Hx. rewrite <- rotr_spec by assumption. now apply bnd_rotr. Qed.

(** a state: 16 words *)
Definition state_ok (w : N) (v : list N) : Prop := length v = 16%nat /\ Forall (bnd w) v.

Definition cell_list (q : nat * nat * nat * nat) : list nat := let '(a, b, c, d) := q in [a; b; c; d].

Lemma mix_ok w r1 r2 r3 r4 x y q v :
  r1 <= w -> r2 <= w -> r3 <= w -> r4 <= w -> state_ok w v -> Forall (fun i => i < 16)%nat (cell_list q) ->
  call_regs (blakeMix w r1 r2 r3 r4 x y) (cell_list q) v = Ok (S.mix w r1 r2 r3 r4 x y q v)
  /\ state_ok w (S.mix w r1 r2 r3 r4 x y q v).
Proof.
  intros H1 H2 H3 H4 [Hl Hv] Hq. destruct q as [[[ia ib] ic] id]. cbn [cell_list] in *. inv_Forall.
  unfold call_regs. cbn [mapM]. rewrite !(aget_ok 0) by lia. cbn [bind].
  unfold blakeMix, S.mix. cbv zeta.
  pose proof (Forall_nth_bnd w v ia Hv). pose proof (Forall_nth_bnd w v ib Hv).
  pose proof (Forall_nth_bnd w v ic Hv). pose proof (Forall_nth_bnd w v id Hv).
  generalize dependent (nth ia v 0). generalize dependent (nth ib v 0).
  generalize dependent (nth ic v 0). generalize dependent (nth id v 0). intros d Hd c Hc b Hb a Ha.
  assert (uadd w (uadd w a b) x = sum w [a; b; x]) as -> by (sum_eq w).
  set (a1 := sum w [a; b; x]). assert (bnd w a1) as Ha1 by apply bnd_sum.
  rewrite (rotr_spec w (N.lxor d a1)) by auto with wb.
  set (d1 := ROTR w r1 (N.lxor d a1)). assert (bnd w d1) as Hd1 by (apply bnd_ROTR; auto with wb).
  rewrite (uadd_spec w c d1). set (c1 := add w c d1). assert (bnd w c1) as Hc1 by apply bnd_wadd.
  rewrite (rotr_spec w (N.lxor b c1)) by auto with wb.
  set (b1 := ROTR w r2 (N.lxor b c1)). assert (bnd w b1) as Hb1 by (apply bnd_ROTR; auto with wb).
  assert (uadd w (uadd w a1 b1) y = sum w [a1; b1; y]) as -> by (clearbody a1 b1; sum_eq w).
  set (a2 := sum w [a1; b1; y]). assert (bnd w a2) as Ha2 by apply bnd_sum.
  rewrite (rotr_spec w (N.lxor d1 a2)) by auto with wb.
  set (d2 := ROTR w r3 (N.lxor d1 a2)). assert (bnd w d2) as Hd2 by (apply bnd_ROTR; auto with wb).
  rewrite (uadd_spec w c1 d2). set (c2 := add w c1 d2). assert (bnd w c2) as Hc2 by apply bnd_wadd.
  rewrite (rotr_spec w (N.lxor b1 c2)) by auto with wb.
  set (b2 := ROTR w r4 (N.lxor b1 c2)). assert (bnd w b2) as Hb2 by (apply bnd_ROTR; auto with wb).
  clearbody a2 b2 c2 d2. cbn [bind foldM fst snd aget nth_error].
  rewrite !put_upd.
  rewrite !aset_ok by (rewrite ?upd_length; lia). cbn [bind].
  rewrite !aset_ok by (rewrite ?upd_length; lia). cbn [bind].
  rewrite !aset_ok by (rewrite ?upd_length; lia). cbn [bind].
  rewrite !aset_ok by (rewrite ?upd_length; lia). cbn [bind].
  split; [reflexivity|]. split; [rewrite !upd_length; exact Hl|]. auto using Forall_upd.
Qed.

Lemma cells_lt i : (i < 8)%nat -> Forall (fun i => i < 16)%nat (cell_list (S.cell i)).
Proof. intros H. do 8 (destruct i as [|i]; [repeat constructor; lia|]). lia. Qed.

Section Rounds.
  Variables (F : Type) (w r1 r2 r3 r4 : N) (exec : call F -> list N -> res (list N)).
  Variables (inject : nat -> nat -> N * N) (mk : nat -> nat -> call F) (n : nat) (calls : list (call F)).
  Hypothesis H1 : r1 <= w.
  Hypothesis H2 : r2 <= w.
  Hypothesis H3 : r3 <= w.
  Hypothesis H4 : r4 <= w.
  Hypothesis Hcalls : calls = flat_map (fun r => map (mk r) (seq 0 8)) (seq 0 n).
  Hypothesis Hexec : forall r i v, (r < n)%nat -> (i < 8)%nat ->
    exec (mk r i) v = call_regs (blakeMix w r1 r2 r3 r4 (fst (inject r i)) (snd (inject r i))) (cell_list (S.cell i)) v.

  Lemma rounds_ok v : state_ok w v ->
    foldM exec calls v = Ok (S.rounds w r1 r2 r3 r4 inject n v) /\
    state_ok w (S.rounds w r1 r2 r3 r4 inject n v).
  Proof.
    intros Hv. rewrite Hcalls, foldM_flat_map. unfold S.rounds.
    apply (foldM_fold (state_ok w) (fun r v =>
      fold_left (fun v i => let (x, y) := inject r i in S.mix w r1 r2 r3 r4 x y (S.cell i) v) (seq 0 8) v)); [exact Hv|].
    intros r u Hr Hu. apply in_seq in Hr. rewrite foldM_map.
    apply (foldM_fold (state_ok w) (fun i v =>
      let (x, y) := inject r i in S.mix w r1 r2 r3 r4 x y (S.cell i) v)); [exact Hu|].
    intros i t Hi Ht. apply in_seq in Hi. rewrite Hexec by lia.
    destruct (inject r i) as [x y]. cbn [fst snd]. apply mix_ok; auto. apply cells_lt. lia.
  Qed.
End Rounds.
