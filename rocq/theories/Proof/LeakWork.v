(** How much work the member functions do, counted in array accesses and branches. *)
From Coq Require Import List NArith ZArith Arith Bool Lia.
From Verif.Base Require Import CWord.
From Verif.Base Require Res.
From Verif.Base Require Import Leak.
From Verif.Spec Require Import Client Work.
From Verif.Model Require Import Buffer Api Call Library LeakLibrary.
From Verif.Model Require Stream Counter Keccak Md2 Blake1 Blake2 Has160 Md4 Md5 Ripemd Sha1 Sm3 SipHash.
From Verif.Model.Gen Require Md4Calls Md5Calls Has160Calls Sha1Calls Sm3Calls Ripemd128Calls Ripemd160Calls Ripemd256Calls Ripemd320Calls.
From Verif.Model.Leak Require Import LkBuffer LkStream.
From Verif.Model.Leak Require LkCall LkBlakeMix LkBlake1 LkBlake2 LkCrc32 LkFnv LkHas160 LkKeccak LkMd2 LkMd4 LkMd5 LkRipemd
  LkSha1 LkSha2 LkSipHash LkSm3 LkTiger LkWhirlpool.
Import ListNotations.
Local Open Scope nat_scope.

(** at most n events, whatever the outcome *)
Definition lim {A} (n : nat) (x : res A) : Prop := length (fst x) <= n.
Definition post {A} (P : A -> Prop) (x : res A) : Prop := forall a, snd x = Res.Ok a -> P a.

Lemma lim_weak {A} n k (x : res A) : lim n x -> n <= k -> lim k x. Proof. unfold lim. lia. Qed.
Lemma lim_ok {A} (a : A) : lim 0 (Ok a). Proof. apply le_n. Qed.
Lemma lim_ub {A} n u : lim n (@Ub A u). Proof. apply Nat.le_0_l. Qed.
Lemma lim_throw {A} n u : lim n (@Throw A u). Proof. apply Nat.le_0_l. Qed.
Lemma lim_tell {A} n e (x : res A) : lim n x -> lim (S n) (tell e x). Proof. apply le_n_S. Qed.
Lemma lim_if {A} n k (c : bool) (x y : res A) : lim n x -> lim k y -> lim (S (n + k)) (if! c then x else y).
Proof. intros H K. apply lim_tell. destruct c; eapply lim_weak; eauto; lia. Qed.
Lemma lim_get {A} (l : list A) i : lim 1 (aget l i). Proof. apply le_n. Qed.
Lemma lim_back {A} (l : list A) i k : lim 1 (aget_back l i k). Proof. apply le_n. Qed.
Lemma lim_iget {A} (l : list (option A)) i : lim 1 (iget l i). Proof. apply le_n. Qed.
Lemma lim_set {A} (l : list A) i v : lim 1 (aset l i v). Proof. apply le_n. Qed.
Lemma lim_post {A B} (P : A -> Prop) n k (x : res A) (f : A -> res B) : lim n x -> post P x -> (forall a, P a -> lim k (f a)) -> lim (n + k) (bind x f).
Proof. intros H Q K. unfold lim, bind in *. cbn [fst]. rewrite app_length. destruct (snd x) as [a| |] eqn:E; [specialize (K a (Q a E))| |]; cbn [length]; lia. Qed.
Lemma lim_bind {A B} n k (x : res A) (f : A -> res B) : lim n x -> (forall a, lim k (f a)) -> lim (n + k) (bind x f).
Proof. intros H K. apply (lim_post (fun _ => True)); auto. intros a _. exact I. Qed.
Lemma lim_for {S} c (f : nat -> S -> res S) : (forall i s, lim c (f i s)) -> forall n i s, lim (n * (c + 1) + 1) (for_ i n f s).
Proof.
  intros H n. induction n as [|n IH]; intros i s; cbn [for_].
  - apply lim_tell, lim_ok.
  - replace (Datatypes.S n * (c + 1) + 1) with (Datatypes.S (c + (n * (c + 1) + 1))) by lia. apply lim_tell, lim_bind; auto.
Qed.
Lemma lim_fold {A S} c (f : A -> S -> res S) : (forall a s, lim c (f a s)) -> forall l s, lim (length l * (c + 1) + 1) (foldM f l s).
Proof.
  intros H l. induction l as [|a l IH]; intros s; cbn [foldM length].
  - apply lim_tell, lim_ok.
  - replace (Datatypes.S (length l) * (c + 1) + 1) with (Datatypes.S (c + (length l * (c + 1) + 1))) by lia. apply lim_tell, lim_bind; auto.
Qed.
Lemma lim_map {A B} c (f : A -> res B) : (forall a, lim c (f a)) -> forall l, lim (length l * c) (mapM f l).
Proof.
  intros H l. induction l as [|x l IH]; cbn [mapM length]; [apply lim_ok|].
  replace (Datatypes.S (length l) * c) with (c + (length l * c + 0)) by lia. apply lim_bind; [auto|]. intros. apply lim_bind; [auto|]. intros. apply lim_ok.
Qed.
(** a list of calls of different cost *)
Lemma lim_calls {J A S} (f : J -> A -> S -> res S) : (forall a, exists c, forall j s, lim c (f j a s)) -> forall l, exists c, forall j s, lim c (foldM (f j) l s).
Proof.
  intros H l. induction l as [|a l [n IH]]; cbn [foldM].
  - exists 1. intros. apply lim_tell, lim_ok.
  - destruct (H a) as [c Hc]. exists (Datatypes.S (c + n)). intros. apply lim_tell, lim_bind; auto.
Qed.

Lemma post_ok {A} (P : A -> Prop) a : P a -> post P (Ok a). Proof. intros H b E. injection E as <-. exact H. Qed.
Lemma post_ub {A} (P : A -> Prop) u : post P (Ub u). Proof. intros b E. discriminate E. Qed.
Lemma post_throw {A} (P : A -> Prop) u : post P (Throw u). Proof. intros b E. discriminate E. Qed.
Lemma post_tell {A} (P : A -> Prop) e x : post P x -> post P (tell e x). Proof. intros H. exact H. Qed.
Lemma post_bind {A B} (P : A -> Prop) (Q : B -> Prop) x f : post P x -> (forall a, P a -> post Q (f a)) -> post Q (bind x f).
Proof. intros H K b E. cbn [bind snd] in E. destruct (snd x) as [a| |] eqn:Ex; try discriminate E. exact (K a (H a Ex) b E). Qed.
Lemma post_any {A B} (Q : B -> Prop) (x : res A) f : (forall a, post Q (f a)) -> post Q (bind x f).
Proof. intros H. apply (post_bind (fun _ => True)); [intros a _; exact I|auto]. Qed.
Lemma post_for {S} (P : S -> Prop) (f : nat -> S -> res S) : (forall i s, P s -> post P (f i s)) -> forall n i s, P s -> post P (for_ i n f s).
Proof. intros H n. induction n as [|n IH]; intros i s Hs; cbn [for_]; apply post_tell; [apply post_ok, Hs|]. apply (post_bind P); auto. Qed.
Lemma post_fold {A S} (P : S -> Prop) (f : A -> S -> res S) : (forall a s, P s -> post P (f a s)) -> forall l s, P s -> post P (foldM f l s).
Proof. intros H l. induction l as [|a l IH]; intros s Hs; cbn [foldM]; apply post_tell; [apply post_ok, Hs|]. apply (post_bind P); auto. Qed.
Lemma set_length {A} (l : list A) i v r : Res.aset l i v = Res.Ok r -> length r = length l.
Proof.
  unfold Res.aset. destruct (Nat.ltb_spec i (length l)) as [H|H]; intros E; [|discriminate E]. injection E as <-.
  apply Res.upd_length.
Qed.
Lemma post_set {A} (l : list A) i v n : length l = n -> post (fun r => length r = n) (aset l i v).
Proof. intros <- r E. exact (set_length l i v r E). Qed.

Ltac lim_step :=
  match goal with
  | |- lim _ (Ok _) => apply lim_ok
  | |- lim _ (Ub _) => apply (lim_ub 0)
  | |- lim _ (Throw _) => apply (lim_throw 0)
  | |- lim _ (bind _ _) => eapply lim_bind; [|intros]
  | |- lim _ (tell (Branch ?c) (if ?c then _ else _)) => eapply lim_if
  | |- lim _ (aget _ _) => apply lim_get
  | |- lim _ (aget_back _ _ _) => apply lim_back
  | |- lim _ (iget _ _) => apply lim_iget
  | |- lim _ (aset _ _ _) => apply lim_set
  | |- lim _ (for_ _ _ _ _) => eapply lim_for; intros
  | |- lim _ (mapM _ _) => eapply lim_map; intros
  | H : forall j s, lim _ (foldM _ ?l _) |- lim _ (foldM _ ?l _) => apply H
  | |- lim _ (foldM _ _ _) => eapply lim_fold; intros
  | |- lim _ (let '(_, _) := ?x in _) => destruct x
  | |- lim _ (match ?x with (_, _) => _ end) => destruct x
  end.
Ltac lim := repeat (cbv beta zeta; lim_step).

(** ** loads and stores *)
Lemma lim_bytes nb m i : lim nb (load_bytes nb m i).
Proof. unfold load_bytes. eapply lim_weak; [apply lim_map; intros; apply lim_get|]. rewrite seq_length. lia. Qed.
Lemma lim_be nb m i : lim nb (load_be nb m i).
Proof. unfold load_be. eapply lim_weak; [eapply lim_bind; [apply lim_bytes|intros; apply lim_ok]|lia]. Qed.
Lemma lim_le nb m i : lim nb (load_le nb m i).
Proof. unfold load_le. eapply lim_weak; [eapply lim_bind; [apply lim_bytes|intros; apply lim_ok]|lia]. Qed.

(** a write behind the end is the last *)
Lemma lim_store n d : lim (2 * n + 3) (store_array n d).
Proof.
  unfold store_array. eapply lim_weak; [eapply (lim_bind (2 * n + 3) 0); [|intros; apply lim_ok]|lia].
  assert (forall l (a : list N) i, i <= length a -> lim (2 * (length a - i) + 3)
    (foldM (fun b (st : list N * nat) => let! a := aset (fst st) (snd st) b in Ok (a, S (snd st))) l (a, i))) as G.
  { intros l. induction l as [|x l IH]; intros a i Hi; cbn [foldM]; [eapply lim_weak; [apply lim_tell, lim_ok|lia]|].
    destruct (Nat.eq_dec i (length a)) as [->|Hne].
    - unfold lim, tell, bind, aset. cbn [fst snd]. unfold Res.aset. rewrite Nat.ltb_irrefl. cbn. lia.
    - replace (2 * (length a - i) + 3) with (S (1 + (2 * (length a - S i) + 3))) by lia.
      apply lim_tell. apply (lim_post (fun st => length (fst st) = length a /\ snd st = S i)).
      + eapply lim_weak; [lim|]. lia.
      + apply (post_bind (fun r => length r = length a)); [apply post_set; reflexivity|]. intros r Hr. apply post_ok. cbn. auto.
      + intros [r j] [Hr Hj]. cbn in Hr, Hj. subst j. rewrite <- Hr. apply IH. lia. }
  specialize (G d (repeat 0%N n) 0 ltac:(lia)). rewrite repeat_length, Nat.sub_0_r in G. exact G.
Qed.
Lemma post_store n d : post (fun r => length r = n) (store_array n d).
Proof.
  unfold store_array. apply (post_bind (fun st : list N * nat => length (fst st) = n)).
  - apply post_fold; [|cbn; apply repeat_length]. intros b [a i] Ha. apply (post_bind (fun r => length r = n)); [apply post_set, Ha|]. intros r Hr. apply post_ok, Hr.
  - intros [r i] Hr. apply post_ok, Hr.
Qed.
Lemma lim_uint k d : lim (length d * 2 + 1) (to_uint k d).
Proof. unfold to_uint. eapply lim_weak; [lim|]. nia. Qed.
Lemma lim_digit x : lim 1 (hex_digit x). Proof. unfold hex_digit. eapply lim_weak; [lim|lia]. Qed.
Lemma lim_string d : lim (length d * 3 + 1) (to_string d).
Proof.
  unfold to_string. destruct d as [|c d]; [apply lim_ub|]. eapply lim_weak; [eapply (lim_fold 2)|lia]. intros.
  eapply lim_weak; [eapply lim_bind; [apply lim_digit|intros]; eapply lim_bind; [apply lim_digit|intros; apply lim_ok]|lia].
Qed.

(** ** the buffer *)
Definition cap (n : nat) (b : Buffer) : Prop := length (b_arr b) = n.
Lemma cap_new n : cap n (buf_new n). Proof. apply repeat_length. Qed.
Lemma cap_clear n b : cap n b -> cap n (buf_clear b). Proof. intros H. unfold buf_clear. rewrite H. apply cap_new. Qed.
Lemma cap_span n b : cap n b -> length (buf_span b) <= n. Proof. intros H. unfold buf_span. rewrite firstn_length, H. apply Nat.le_min_r. Qed.
Lemma lim_check dbg n b : lim 2 (buf_check dbg n b). Proof. unfold buf_check. eapply lim_weak; [lim|lia]. Qed.
Lemma lim_put v b : lim 1 (buf_put v b). Proof. unfold buf_put. eapply lim_weak; [lim|lia]. Qed.
Lemma post_put n v b : cap n b -> post (cap n) (buf_put v b).
Proof. intros H. unfold buf_put. apply (post_bind (fun r => length r = n)); [apply post_set, H|]. intros r Hr. apply post_ok, Hr. Qed.
Lemma lim_fill dbg v k b : lim (2 * k + 3) (buf_fill dbg v k b).
Proof. unfold buf_fill. eapply lim_weak; [eapply lim_bind; [apply lim_check|intros; apply (lim_for 1); intros; apply lim_put]|lia]. Qed.
Lemma post_fill n dbg v k b : cap n b -> post (cap n) (buf_fill dbg v k b).
Proof. intros H. unfold buf_fill. apply post_any. intros. apply post_for; [|exact H]. intros. now apply post_put. Qed.
Lemma lim_push dbg d b : lim (6 * length d + 1) (buf_push_back dbg d b).
Proof. unfold buf_push_back. eapply lim_weak; [apply (lim_fold 5); intros; apply (lim_fill dbg a 1)|lia]. Qed.
Lemma post_push n dbg d b : cap n b -> post (cap n) (buf_push_back dbg d b).
Proof. intros H. unfold buf_push_back. apply post_fold; [|exact H]. intros. now apply post_fill. Qed.
Lemma lim_range dbg n d : lim (6 * length d + 1) (buf_of_range dbg n d). Proof. apply lim_push. Qed.
Lemma post_range dbg n d : post (cap n) (buf_of_range dbg n d). Proof. apply post_push, cap_new. Qed.
Lemma lim_setend k i v b : lim 2 (buf_set_from_end k i v b). Proof. unfold buf_set_from_end. eapply lim_weak; [lim|lia]. Qed.
Lemma post_setend n k i v b : cap n b -> post (cap n) (buf_set_from_end k i v b).
Proof.
  intros H. unfold buf_set_from_end. apply post_tell. destruct (_ <? _); [apply post_ub|]. apply (post_bind (fun r => length r = n)); [apply post_set, H|].
  intros r Hr. apply post_ok, Hr.
Qed.
Lemma lim_getend k b : lim 2 (buf_get_from_end k b). Proof. unfold buf_get_from_end. eapply lim_weak; [lim|lia]. Qed.
Lemma lim_first n d : lim 1 (span_first n d). Proof. unfold span_first. eapply lim_weak; [lim|lia]. Qed.
Lemma post_first n d : post (fun r => length r <= length d) (span_first n d).
Proof. unfold span_first. apply post_tell. destruct (_ <=? _); [|apply post_ub]. apply post_ok. rewrite firstn_length. apply Nat.le_min_r. Qed.
Lemma lim_sub n d : lim 1 (span_subspan n d). Proof. unfold span_subspan. eapply lim_weak; [lim|lia]. Qed.
Lemma post_sub n d : post (fun r => length r <= length d) (span_subspan n d).
Proof. unfold span_subspan. apply post_tell. destruct (_ <=? _); [|apply post_ub]. apply post_ok. rewrite skipn_length. lia. Qed.

(** ** addData *)
Section Add.
  Context {St : Type} (J : St -> Prop) (B n : nat) (dbg : bool) (impl : list N -> St -> res St) (c : nat).
  Hypothesis Himpl : forall d s, J s -> lim (c * S (length d)) (impl d s) /\ post J (impl d s).
  Definition inv (o : Buffer * St) : Prop := cap n (fst o) /\ J (snd o).

  Lemma lim_tail d b s : cap n b -> J s -> lim ((c + 16) * S (length d)) (LkStream.addData_tail St B n dbg impl d b s).
  Proof using Himpl.
    intros Hb Hs. unfold LkStream.addData_tail. apply (lim_weak (S ((6 * length d + 1 + 0) + (1 + (c * S (length d) + S ((6 * length d + 1 + 0) + 0)))))); [|nia].
    apply lim_if; [apply lim_bind; [apply lim_range|intros; apply lim_ok]|].
    apply (lim_post (fun r => length r <= length d)); [apply lim_first|apply post_first|]. intros r Hr.
    apply (lim_post J); [eapply lim_weak; [apply Himpl, Hs|nia]|apply Himpl, Hs|]. intros s' Hs'.
    apply lim_if; [|apply lim_ok]. apply lim_bind; [|intros; apply lim_ok]. eapply lim_weak; [apply lim_range|]. rewrite skipn_length. lia.
  Qed.
  Lemma post_tail d b s : cap n b -> J s -> post inv (LkStream.addData_tail St B n dbg impl d b s).
  Proof using Himpl.
    intros Hb Hs. unfold LkStream.addData_tail. apply post_tell. destruct (_ <? _).
    - apply (post_bind (cap n)); [apply post_range|]. intros. apply post_ok. split; assumption.
    - apply post_any. intros r. apply (post_bind J); [apply Himpl, Hs|]. intros s' Hs'. apply post_tell. destruct (_ <? _); [|apply post_ok; split; assumption].
      apply (post_bind (cap n)); [apply post_range|]. intros. apply post_ok. split; assumption.
  Qed.
  Lemma lim_add d o : inv o -> lim ((c * (n + 3) + 64) * S (length d)) (LkStream.addData St B n dbg impl d o).
  Proof using Himpl.
    destruct o as [b s]. intros [Hb Hs]. cbn in Hb, Hs. unfold LkStream.addData.
    apply (lim_weak (S ((6 * length d + 1 + S (0 + (c * S n + (1 + (c + 16) * S (length d))))) + (c + 16) * S (length d)))); [|nia].
    apply lim_if; [|apply lim_tail; assumption]. cbv zeta.
    match goal with |- context [firstn ?k d] => set (q := k) end.
    apply (lim_post (cap n)); [eapply lim_weak; [apply lim_push|rewrite firstn_length; lia]|apply post_push, Hb|]. intros b' Hb'.
    apply lim_if; [apply lim_ok|]. apply (lim_post J); [eapply lim_weak; [apply Himpl, Hs|pose proof (cap_span n b' Hb'); nia]|apply Himpl, Hs|].
    intros s' Hs'. apply (lim_post (fun r => length r <= length d)); [apply lim_sub|apply post_sub|]. intros r Hr.
    eapply lim_weak; [apply lim_tail; [apply cap_clear, Hb'|exact Hs']|nia].
  Qed.
  Lemma post_add d o : inv o -> post inv (LkStream.addData St B n dbg impl d o).
  Proof using Himpl.
    destruct o as [b s]. intros [Hb Hs]. cbn in Hb, Hs. unfold LkStream.addData. apply post_tell.
    destruct (negb _); [|apply post_tail; assumption]. cbv zeta.
    apply (post_bind (cap n)); [apply post_push, Hb|]. intros b' Hb'. apply post_tell. destruct (_ <? _); [apply post_ok; split; assumption|].
    apply (post_bind J); [apply Himpl, Hs|]. intros s' Hs'. apply post_any. intros r. apply post_tail; [apply cap_clear, Hb'|exact Hs'].
  Qed.
End Add.
Section Add2.
  Context {St : Type} (J : St -> Prop) (B : nat) (dbg : bool) (impl : list N -> St -> res St) (c : nat).
  Hypothesis Himpl : forall d s, J s -> lim (c * S (length d)) (impl d s) /\ post J (impl d s).
  Notation inv := (inv (St := St) J B).

  Lemma lim_tail2 d s : J s -> lim ((c + 16) * S (length d)) (LkBlake2.addData_tail St B dbg impl d s).
  Proof using Himpl.
    intros Hs. unfold LkBlake2.addData_tail. cbv zeta. match goal with |- context [_ - ?k] => set (q := k) end.
    apply (lim_weak (S ((1 + (c * S (length d) + ((6 * length d + 1) + 0))) + 0))); [|nia].
    apply lim_if; [|apply lim_ub]. apply (lim_post (fun r => length r <= length d)); [apply lim_first|apply post_first|]. intros r Hr.
    apply (lim_post J); [eapply lim_weak; [apply Himpl, Hs|nia]|apply Himpl, Hs|]. intros s' Hs'.
    apply lim_bind; [|intros; apply lim_ok]. eapply lim_weak; [apply lim_range|]. rewrite skipn_length. lia.
  Qed.
  Lemma post_tail2 d s : J s -> post inv (LkBlake2.addData_tail St B dbg impl d s).
  Proof using Himpl.
    intros Hs. unfold LkBlake2.addData_tail. cbv zeta. apply post_tell. destruct (_ <=? _); [|apply post_ub].
    apply post_any. intros r. apply (post_bind J); [apply Himpl, Hs|]. intros s' Hs'.
    apply (post_bind (cap B)); [apply post_range|]. intros. apply post_ok. split; assumption.
  Qed.
  Lemma add2 k : forall d o, inv o -> lim (S k * ((c * (B + 3) + 64) * S (length d))) (LkBlake2.addData_rec St B dbg impl k d o)
    /\ post inv (LkBlake2.addData_rec St B dbg impl k d o).
  Proof using Himpl.
    induction k as [|k IH]; intros d [b s] Ho; pose proof Ho as [Hb Hs]; cbn in Hb, Hs; cbn [LkBlake2.addData_rec]; [split; [apply lim_ub|apply post_ub]|].
    destruct d as [|x d]; [split; [apply lim_weak with 0; [apply lim_ok|lia]|apply post_ok, Ho]|]. set (e := x :: d) in *. clearbody e. split.
    - set (M := (c * (B + 3) + 64) * S (length e)) in *.
      apply (lim_weak (S ((c * S B + (c + 16) * S (length e)) + S ((6 * length e + 1 + (1 + S k * M)) + (c + 16) * S (length e))))); [|].
      + apply lim_if; [|apply lim_if; [|apply lim_tail2, Hs]].
        * apply (lim_post J); [eapply lim_weak; [apply Himpl, Hs|pose proof (cap_span B b Hb); nia]|apply Himpl, Hs|]. intros s' Hs'. apply lim_tail2, Hs'.
        * cbv zeta. match goal with |- context [firstn ?k e] => set (q := k) end.
          apply (lim_post (cap B)); [eapply lim_weak; [apply lim_push|rewrite firstn_length; lia]|apply post_push, Hb|]. intros b' Hb'.
          apply (lim_post (fun r => length r <= length e)); [apply lim_sub|apply post_sub|]. intros r Hr.
          eapply lim_weak; [apply (IH r (b', s)); split; assumption|]. apply Nat.mul_le_mono_l. unfold M. apply Nat.mul_le_mono_l. lia.
      + assert (M = (c * (B + 3) + 64) * S (length e)) as EM by reflexivity. clearbody M. nia.
    - apply post_tell. destruct (_ =? _); [|apply post_tell; destruct (negb _)].
      + apply (post_bind J); [apply Himpl, Hs|]. intros s' Hs'. apply post_tail2, Hs'.
      + cbv zeta. apply (post_bind (cap B)); [apply post_push, Hb|]. intros b' Hb'. apply post_any. intros r. apply (IH r (b', s)). split; assumption.
      + apply post_tail2, Hs.
  Qed.
End Add2.
