(** What holds of a result if there is one: facts about every execution, promised or not. *)
From Coq Require Import List NArith Arith Bool Lia.
From Verif.Base Require Import Res CWord.
From Verif.Spec Require Import Words Client Legal.
From Verif.Model Require Import Buffer Stream Api Call Library.
From Verif.Proof Require Import Words Rounds.
Import ListNotations.

Definition post {A} (r : res A) (Q : A -> Prop) : Prop := forall a, r = Ok a -> Q a.

Lemma post_ok {A} (a : A) (Q : A -> Prop) : Q a -> post (Ok a) Q.
Proof. intros H b E. injection E as <-. exact H. Qed.
Lemma post_ub {A} u (Q : A -> Prop) : post (Ub u) Q.
Proof. intros b E. discriminate. Qed.
Lemma post_throw {A} e (Q : A -> Prop) : post (Throw e) Q.
Proof. intros b E. discriminate. Qed.
Lemma post_bind {A B} (r : res A) (k : A -> res B) P Q : post r P -> (forall a, P a -> post (k a) Q) -> post (bind r k) Q.
Proof. intros Hr Hk b E. destruct r as [a| |]; try discriminate. apply (Hk a (Hr a eq_refl)), E. Qed.
Lemma post_any {A B} (r : res A) (k : A -> res B) Q : (forall a, post (k a) Q) -> post (bind r k) Q.
Proof. intros H. apply (post_bind r k (fun _ => True)); [intros a _; exact I|]. intros a _. apply H. Qed.
Lemma post_weaken {A} (r : res A) (P Q : A -> Prop) : post r P -> (forall a, P a -> Q a) -> post r Q.
Proof. intros H HPQ a E. apply HPQ, H, E. Qed.
Lemma post_and {A} (r : res A) (P Q : A -> Prop) : post r P -> post r Q -> post r (fun a => P a /\ Q a).
Proof. intros H H' a E. split; [apply H|apply H']; exact E. Qed.

Lemma post_for {S} (I : S -> Prop) body n : (forall i s, I s -> post (body i s) I) ->
  forall from s, I s -> post (for_ from n body s) I.
Proof.
  intros Hb. induction n as [|n IH]; intros from s Hs; cbn [for_]; [apply post_ok, Hs|].
  apply (post_bind _ _ I); [apply Hb, Hs|]. intros a Ha. apply IH, Ha.
Qed.
Lemma post_foldM {A S} (I : S -> Prop) (f : A -> S -> res S) l : (forall a s, I s -> post (f a s) I) ->
  forall s, I s -> post (foldM f l s) I.
Proof.
  intros Hf. induction l as [|a l IH]; intros s Hs; cbn [foldM]; [apply post_ok, Hs|].
  apply (post_bind _ _ I); [apply Hf, Hs|]. exact IH.
Qed.
Lemma post_foldM_in {A S} (I : S -> Prop) (f : A -> S -> res S) l : (forall a s, In a l -> I s -> post (f a s) I) ->
  forall s, I s -> post (foldM f l s) I.
Proof.
  induction l as [|a l IH]; intros Hf s Hs; cbn [foldM]; [apply post_ok, Hs|].
  apply (post_bind _ _ I); [apply Hf; [left; reflexivity|exact Hs]|]. apply IH. intros b t Hb. apply Hf. right. exact Hb.
Qed.
Lemma post_mapM {A B} (f : A -> res B) (Q : B -> Prop) l : (forall a, post (f a) Q) ->
  post (mapM f l) (fun r => length r = length l /\ Forall Q r).
Proof.
  intros Hf. induction l as [|a l IH]; cbn [mapM]; [apply post_ok; auto|].
  apply (post_bind _ _ Q); [apply Hf|]. intros b Hb.
  apply (post_bind _ _ _ _ IH). intros r [Hl Hr]. apply post_ok. cbn [length]. auto.
Qed.
Lemma post_aget {A} (Q : A -> Prop) l i : Forall Q l -> post (aget l i) Q.
Proof.
  intros H a E. unfold aget in E. destruct (nth_error l i) as [b|] eqn:N; [|discriminate]. injection E as <-.
  rewrite Forall_forall in H. eapply H, nth_error_In, N.
Qed.
Lemma Forall_upd {A} (Q : A -> Prop) l : forall i v, Forall Q l -> Q v -> Forall Q (upd l i v).
Proof.
  induction l as [|h t IH]; intros i v Hl Hv; [destruct i; constructor|].
  apply Forall_cons_iff in Hl. destruct Hl as [Hh Ht]. destruct i; cbn [upd]; constructor; auto.
Qed.
Lemma post_aset {A} (Q : A -> Prop) l i v : Forall Q l -> Q v -> post (aset l i v) (fun r => length r = length l /\ Forall Q r).
Proof.
  intros Hl Hv r E. unfold aset in E. destruct (i <? length l); [|discriminate]. injection E as <-.
  split; [apply upd_length|apply Forall_upd; assumption].
Qed.

(** [n] words of [w] bits *)
Definition words (w : N) (n : nat) (l : list N) : Prop := length l = n /\ Forall (bnd w) l.

Lemma words_aset w n l i v : words w n l -> bnd w v -> post (aset l i v) (words w n).
Proof. intros [Hl Hb] Hv. apply (post_weaken _ _ _ (post_aset (bnd w) l i v Hb Hv)). intros r [H1 H2]. split; [congruence|exact H2]. Qed.
Lemma words_aget w n l i : words w n l -> post (aget l i) (bnd w).
Proof. intros [_ H]. apply post_aget, H. Qed.
Lemma words_mapM w n l is : words w n l -> post (mapM (aget l) is) (words w (length is)).
Proof. intros [_ H]. apply post_mapM. intros a. apply post_aget, H. Qed.

(** a lambda with reference parameters *)
Lemma words_call w n f regs r : words w n r ->
  (forall vs, Forall (bnd w) vs -> post (f vs) (Forall (fun p => bnd w (snd p)))) ->
  post (call_regs f regs r) (words w n).
Proof.
  intros Hr Hf. unfold call_regs. apply (post_bind _ _ _ _ (words_mapM w n r regs Hr)). intros vs [_ Hvs].
  apply (post_bind _ _ _ _ (Hf vs Hvs)). intros ws Hws.
  apply (post_foldM_in (words w n)); [|exact Hr]. intros p s Hp Hs. apply post_any. intros j.
  apply words_aset; [exact Hs|]. rewrite Forall_forall in Hws. apply Hws, Hp.
Qed.

(** loaded words are bounded whatever the memory holds *)
Lemma bnd_or_be w l : bnd w (or_be w l).
Proof. induction l as [|b t IH]; cbn [or_be]; auto with wb. Qed.
Lemma bnd_or_le w l : forall s, bnd w (or_le w s l).
Proof. induction l as [|b t IH]; intros s; cbn [or_le]; auto with wb. Qed.
Lemma post_load_be nb m i : post (load_be nb m i) (bnd (8 * N.of_nat nb)).
Proof. unfold load_be. apply post_any. intros l. apply post_ok, bnd_or_be. Qed.
Lemma post_load_le nb m i : post (load_le nb m i) (bnd (8 * N.of_nat nb)).
Proof. unfold load_le. apply post_any. intros l. apply post_ok, bnd_or_le. Qed.

(** ** addData and the block loop *)
Lemma post_block_loop {H} B (compress : list N -> H -> res H) (I : H -> Prop) :
  (forall m h, I h -> post (compress m h) I) -> forall d h, I h -> post (block_loop H B compress d h) I.
Proof. intros Hc d h Hh. apply post_for; [|exact Hh]. intros i s. apply Hc. Qed.

Section AddData.
  Context {St : Type} (B cap : nat) (dbg : bool) (impl : list N -> St -> res St) (I : St -> Prop).
  Hypothesis Himpl : forall d s, I s -> post (impl d s) I.

  Lemma post_tail d b s : I s -> post (addData_tail St B cap dbg impl d b s) (fun o => I (snd o)).
  Proof.
    intros Hs. unfold addData_tail. destruct (length d <? B).
    - apply post_any. intros b'. apply post_ok, Hs.
    - apply post_any. intros d'. apply (post_bind _ _ _ _ (Himpl d' s Hs)). intros s' Hs'.
      destruct (_ <? length d); [apply post_any; intros b'|]; apply post_ok, Hs'.
  Qed.
  Lemma post_addData d o : I (snd o) -> post (addData St B cap dbg impl d o) (fun o => I (snd o)).
  Proof.
    destruct o as [b s]. cbn [snd]. intros Hs. unfold addData. destruct (negb (buf_empty b)); [|apply post_tail, Hs].
    apply post_any. intros b'. destruct (buf_size b' <? B); [apply post_ok, Hs|].
    apply (post_bind _ _ _ _ (Himpl _ s Hs)). intros s' Hs'. apply post_any. intros d'. apply post_tail, Hs'.
  Qed.
End AddData.

(** ** Invariants of objects *)
Record Kept (C : HashClass) (I : Obj C -> Prop) : Prop := mkKept {
  kept_new : I (c_new C);
  kept_add : forall d x, bytes_ok d -> I x -> post (c_add C d x) I;
  kept_fin : forall x, I x -> post (c_finalize C x) I;
  kept_reset : forall x, I x -> I (c_reset C x)
}.

Lemma kept_op C I o x : Kept C I -> op_bytes o -> I x -> post (exec_op C o x) (fun r => I (fst r)).
Proof.
  intros [Kn Ka Kf Kr] Ho Hx. destruct o as [d| | | | | |n|]; cbn [exec_op].
  - apply (post_bind _ _ _ _ (Ka d x Ho Hx)). intros y Hy. apply post_ok, Hy.
  - apply (post_bind _ _ _ _ (Kf x Hx)). intros y Hy. apply post_ok, Hy.
  - apply post_ok, Kr, Hx.
  - apply post_any. intros y. apply post_ok, Hx.
  - apply post_any. intros y. apply post_ok, Hx.
  - apply post_any. intros y. apply post_any. intros s. apply post_ok, Hx.
  - apply post_any. intros y. apply post_any. intros s. apply post_ok, Hx.
  - apply post_any. intros y. apply post_any. intros s. apply post_ok, Hx.
Qed.

Lemma kept_exec C I p : Kept C I -> program_bytes p -> forall st os st', (forall i, I (st i)) ->
  exec C p st = Ok (os, st') -> forall i, I (st' i).
Proof.
  intros K. unfold program_bytes. induction p as [|c p IH]; intros Hp st os st' Hst E.
  - cbn [exec] in E. injection E as _ <-. exact Hst.
  - apply Forall_cons_iff in Hp. destruct Hp as [Hc Hp]. destruct c as [i o|i j]; cbn [exec] in E.
    + destruct (exec_op C o (st i)) as [[x w]| |] eqn:Eo; try discriminate. rewrite bind_ok in E. cbn [fst snd] in E.
      assert (I x) as Hx by exact (kept_op C I o (st i) K Hc (Hst i) _ Eo).
      destruct (exec C p (put C st i x)) as [[os1 st1]| |] eqn:E1; try discriminate. rewrite bind_ok in E. cbn [fst snd] in E.
      injection E as _ <-. refine (IH Hp _ _ _ _ E1). intros k. unfold put. destruct (k =? i); [exact Hx|apply Hst].
    + refine (IH Hp _ _ _ _ E). intros k. unfold put. destruct (k =? i); apply Hst.
Qed.

Lemma kept_reachable C I x : Kept C I -> Reachable C x -> I x.
Proof. intros K (p & os & st & i & Hp & E & ->). refine (kept_exec C I p K Hp _ os st _ E i). intros j. apply K. Qed.
