(** Calls on rotating registers. *)
From Coq Require Import List NArith Arith Bool Lia.
From Verif.Base Require Import Res CWord.
From Verif.Model Require Import Call.
From Verif.Proof Require Import Rounds.
Import ListNotations.

(** the registers passed in the k-th of n consecutive calls *)
Definition regs_of (n k : nat) : list nat := map (fun j => (j + n - k) mod n) (seq 0 n).

(** the assignments of a call, on the parameter values *)
Definition assign (ws : list (nat * N)) (vs : list N) : res (list N) :=
  foldM (fun (w : nat * N) vs => aset vs (fst w) (snd w)) ws vs.

Lemma rotate4 {A} t (a b c d : A) : rotate (t mod 4) [a; b; c; d] = rotate (S t mod 4) [d; a; b; c].
Proof. rewrite (mod_succ t 4) by lia. destruct (mod4_cases t) as [E|[E|[E|E]]]; rewrite E; reflexivity. Qed.
Lemma rotate5 {A} t (a b c d e : A) : rotate (t mod 5) [a; b; c; d; e] = rotate (S t mod 5) [e; a; b; c; d].
Proof. rewrite (mod_succ t 5) by lia. destruct (mod5_cases t) as [E|[E|[E|[E|E]]]]; rewrite E; reflexivity. Qed.

(** one register written *)
Lemma call4 f t a b c d x : f [a; b; c; d] = Ok [(0, x)] ->
  call_regs f (regs_of 4 (t mod 4)) (rotate (t mod 4) [a; b; c; d]) = Ok (rotate (S t mod 4) [d; x; b; c]).
Proof.
  intros E. rewrite <- rotate4. unfold call_regs.
  destruct (mod4_cases t) as [H|[H|[H|H]]]; rewrite H; cbn; rewrite E; reflexivity.
Qed.

(** two registers written *)
Lemma call5 f t a b c d e i x j y vs : f [a; b; c; d; e] = Ok [(i, x); (j, y)] -> i < 5 -> j < 5 ->
  vs = upd (upd [a; b; c; d; e] i x) j y ->
  call_regs f (regs_of 5 (t mod 5)) (rotate (t mod 5) [a; b; c; d; e])
  = Ok (rotate (t mod 5) vs).
Proof.
  intros E Hi Hj ->. unfold call_regs.
  assert (i = 0 \/ i = 1 \/ i = 2 \/ i = 3 \/ i = 4) as Ci by lia. clear Hi.
  assert (j = 0 \/ j = 1 \/ j = 2 \/ j = 3 \/ j = 4) as Cj by lia. clear Hj.
  destruct (mod5_cases t) as [H|[H|[H|[H|H]]]]; rewrite H; cbn -[upd]; rewrite E; cbn -[upd];
  destruct Ci as [-> | [-> | [-> | [-> | ->]]]], Cj as [-> | [-> | [-> | [-> | ->]]]]; reflexivity.
Qed.

(** two lines: the first n registers and the rest *)
Lemma aset_app_l {A} (l m : list A) i v : i < length l -> aset (l ++ m) i v = let! l := aset l i v in Ok (l ++ m).
Proof.
  intros H. rewrite !aset_ok by (rewrite ?app_length; lia). cbn [bind]. f_equal.
  revert i H; induction l as [|a l IH]; intros [|i] H; cbn in *; try lia; [reflexivity|]. f_equal. apply IH. lia.
Qed.

Lemma call_regs_left f regs l m : Forall (fun j => j < length l) regs ->
  call_regs f regs (l ++ m) = let! l := call_regs f regs l in Ok (l ++ m).
Proof.
  intros H. unfold call_regs.
  assert (mapM (aget (l ++ m)) regs = mapM (aget l) regs) as ->.
  { induction H as [|j js Hj Hjs IH]; [reflexivity|]. cbn [mapM]. rewrite aget_app_l by exact Hj. now rewrite IH. }
  rewrite bind_assoc. apply bind_ext; intros vs. rewrite bind_assoc. apply bind_ext; intros ws.
  clear vs. revert l H. induction ws as [|[i v] ws IH]; intros l H; [reflexivity|]. cbn [foldM fst snd].
  rewrite !bind_assoc. destruct (aget regs i) as [j| |] eqn:Ej; [|reflexivity..]. cbn [bind].
  assert (j < length l) as Hj.
  { unfold aget in Ej. destruct (nth_error regs i) as [j'|] eqn:En; [|discriminate]. injection Ej as <-.
    rewrite Forall_forall in H. apply H, (nth_error_In _ _ En). }
  rewrite aset_app_l by exact Hj. rewrite (aset_ok l) by exact Hj. cbn [bind]. apply IH.
  rewrite upd_length. exact H.
Qed.

Lemma aget_app_r {A} (l m : list A) i : aget (l ++ m) (length l + i) = aget m i.
Proof. unfold aget. rewrite nth_error_app2 by lia. now replace (length l + i - length l) with i by lia. Qed.

Lemma mapM_map {A B C} (f : B -> res C) (g : A -> B) l : mapM f (map g l) = mapM (fun a => f (g a)) l.
Proof. induction l as [|a l IH]; [reflexivity|]. cbn. now rewrite IH. Qed.
Lemma mapM_ext {A B} (f g : A -> res B) l : (forall a, f a = g a) -> mapM f l = mapM g l.
Proof. intros H. induction l as [|a l IH]; [reflexivity|]. cbn. now rewrite H, IH. Qed.

Lemma aget_map {A B} (g : A -> B) l i : aget (map g l) i = let! x := aget l i in Ok (g x).
Proof. unfold aget. rewrite nth_error_map. now destruct (nth_error l i). Qed.

Lemma call_regs_right f regs l m : Forall (fun j => j < length m) regs ->
  call_regs f (map (Nat.add (length l)) regs) (l ++ m) = let! m := call_regs f regs m in Ok (l ++ m).
Proof.
  intros H. unfold call_regs. rewrite mapM_map, (mapM_ext _ (aget m)) by (intros; apply aget_app_r).
  rewrite bind_assoc. apply bind_ext; intros vs. rewrite bind_assoc. apply bind_ext; intros ws.
  clear vs. revert m H. induction ws as [|[i v] ws IH]; intros m H; [reflexivity|]. cbn [foldM fst snd].
  rewrite aget_map, !bind_assoc. destruct (aget regs i) as [j| |] eqn:Ej; [|reflexivity..]. cbn [bind].
  assert (j < length m) as Hj.
  { unfold aget in Ej. destruct (nth_error regs i) as [j'|] eqn:En; [|discriminate]. injection Ej as <-.
    rewrite Forall_forall in H. apply H, (nth_error_In _ _ En). }
  rewrite aset_app_r by exact Hj. rewrite (aset_ok m) by exact Hj. cbn [bind]. apply IH.
  rewrite upd_length. exact H.
Qed.

(** ** n consecutive calls on four registers, one written in each *)
From Verif.Spec Require Import Words.
From Verif.Proof Require Import Words.

Definition list4 (v : N * N * N * N) : list N := let '(a, b, c, d) := v in [a; b; c; d].
Definition list5 (v : N * N * N * N * N) : list N := let '(a, b, c, d, e) := v in [a; b; c; d; e].

Lemma rounds4 (g : nat -> list N -> res (list (nat * N))) (st : N * N * N * N -> nat -> N * N * N * N)
    (G : nat -> N -> N -> N -> N -> N) n :
  (forall t a b c d, st (a, b, c, d) t = (d, G t a b c d, b, c)) ->
  (forall t a b c d, t < n -> Forall (bnd 32) [a; b; c; d] ->
     g t [a; b; c; d] = Ok [(0, G t a b c d)] /\ bnd 32 (G t a b c d)) ->
  forall v, Forall (bnd 32) (list4 v) ->
  for_ 0 n (fun t => call_regs (g t) (regs_of 4 (t mod 4))) (list4 v)
  = Ok (rotate (n mod 4) (list4 (fold_left st (seq 0 n) v))) /\
  Forall (bnd 32) (list4 (fold_left st (seq 0 n) v)).
Proof.
  intros Hst Hg v Hv.
  destruct (for_inv (fun t r => let s := fold_left st (seq 0 t) v in
              r = rotate (t mod 4) (list4 s) /\ Forall (bnd 32) (list4 s))
    (fun t => call_regs (g t) (regs_of 4 (t mod 4))) n 0 (list4 v)) as (r & E & Hr & Hb).
  - cbv zeta. cbn [seq fold_left]. split; [|exact Hv]. destruct v as [[[a b] c] d]. reflexivity.
  - intros t r Ht [-> Hb]. cbv zeta. rewrite fold_left_seq_S.
    destruct (fold_left st (seq 0 t) v) as [[[a b] c] d]. cbn [list4] in *. rewrite Hst. cbn [list4].
    destruct (Hg t a b c d ltac:(lia) Hb) as [Eg Hbg]. eexists. split; [apply call4, Eg|].
    split; [reflexivity|]. inv_Forall. repeat constructor; assumption.
  - cbv zeta in *. rewrite E, Hr. split; [reflexivity|exact Hb].
Qed.
