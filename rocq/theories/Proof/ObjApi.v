(** From a relation between promised and modelled objects to all programs. *)
From Coq Require Import List NArith Arith Bool Lia.
From Verif.Base Require Import Res.
From Verif.Spec Require Import Words Client ObjClient.
From Verif.Model Require Import Stream ObjApi.
From Verif.Proof Require Import Api.
Import ListNotations.

Record Realizes (C : ObjClass) (hash : Args C -> list (list N) -> list N) (ok_args : Args C -> Prop)
    (ok_item : list N -> Prop) (may_reset : Args C -> Prop) (may_assign : slot (Args C) -> Args C -> Prop)
    (rel : Args C -> list (list N) -> bool -> OObj C -> Prop) : Prop := mkReal {
  re_construct : forall a, ok_args a -> exists x, oc_construct C a = Ok x /\ rel a [] false x;
  re_feed : forall a l x d, rel a l false x -> ok_item d -> exists y, oc_feed C d x = Ok y /\ rel a (l ++ [d]) false y;
  re_fin : forall a l x, rel a l false x -> exists y, oc_finalize C x = Ok y /\ rel a l true y;
  re_reset : forall a l b x, rel a l b x -> may_reset a -> exists y, oc_reset C x = Ok y /\ rel a [] false y;
  re_vec : forall a l x, rel a l true x -> oc_vector C x = Ok (hash a l) /\ bytes_ok (hash a l);
  re_copy : forall a l b x, rel a l b x -> exists y, oc_copy C x = Ok y /\ rel a l b y;
  re_move : forall a l b x, rel a l b x -> rel a l b (fst (oc_move C x));
  re_assign : forall sl x a l b y, rel a l b y -> may_assign sl a ->
    match sl with NoObject => True | Moved => True | Live o => rel (o_args o) (o_items o) (o_done o) x end ->
    exists z, oc_assign C x y = Ok z /\ rel a l b z;
  re_massign : forall x a l b y, rel a l b y -> rel a l b (fst (oc_massign C x y));
  re_target : forall a, ~ may_assign NoObject a
}.

Section History.
  Context {C : ObjClass} {hash : Args C -> list (list N) -> list N} {ok_args : Args C -> Prop}.
  Context {ok_item : list N -> Prop} {may_reset : Args C -> Prop} {may_assign : slot (Args C) -> Args C -> Prop}.
  Context {rel : Args C -> list (list N) -> bool -> OObj C -> Prop}.
  Hypothesis HR : Realizes C hash ok_args ok_item may_reset may_assign rel.

  Definition srel (sl : slot (Args C)) (x : option (OObj C)) : Prop :=
    match sl with
    | NoObject => True
    | Moved => exists y, x = Some y
    | Live o => exists y, x = Some y /\ rel (o_args o) (o_items o) (o_done o) y
    end.

  Lemma live_get s (st : ostore C) i o : (forall k, srel (s k) (st k)) -> s i = Live o ->
    exists y, sget C st i = Ok y /\ rel (o_args o) (o_items o) (o_done o) y.
  Proof. intros H E. specialize (H i). rewrite E in H. destruct H as (y & Ey & Hy). exists y. unfold sget. rewrite Ey. auto. Qed.

  Lemma put_rel s st i o y : (forall k, srel (s k) (st k)) -> rel (o_args o) (o_items o) (o_done o) y ->
    forall k, srel (oput s i (Live o) k) (sput C st i y k).
  Proof. intros H Hy k. unfold oput, sput. destruct (k =? i); [|apply H]. exists y. auto. Qed.

  Lemma ostep_ok c s s1 w st : ostep hash ok_args ok_item may_reset may_assign c s s1 w -> (forall k, srel (s k) (st k)) ->
    exists st1, exec_ocmd C c st = Ok (st1, w) /\ forall k, srel (s1 k) (st1 k).
  Proof.
    intros Hs Hst. destruct Hs as [i a s Ha|i d a l s E Hd|i a l s E|i a l b s E Hr|i a l s E|i a l s E Hn|i n a l s E|i a l s E|i j o s E|i j o s N E|i j o s E Ha|i j o s N E Hi];
      cbn [exec_ocmd]; try (destruct (live_get s st _ _ Hst E) as (x & Ex & Rx); cbn [o_args o_items o_done] in Rx).
    - destruct (re_construct _ _ _ _ _ _ _ HR a Ha) as (x & -> & Rx). rewrite bind_ok. eexists. split; [reflexivity|]. now apply put_rel.
    - destruct (re_feed _ _ _ _ _ _ _ HR _ _ _ d Rx Hd) as (y & Ey & Ry). unfold update. rewrite Ex, bind_ok, Ey, bind_ok.
      eexists. split; [reflexivity|]. now apply put_rel.
    - destruct (re_fin _ _ _ _ _ _ _ HR _ _ _ Rx) as (y & Ey & Ry). unfold update. rewrite Ex, bind_ok, Ey, bind_ok.
      eexists. split; [reflexivity|]. now apply put_rel.
    - destruct (re_reset _ _ _ _ _ _ _ HR _ _ _ _ Rx Hr) as (y & Ey & Ry). unfold update. rewrite Ex, bind_ok, Ey, bind_ok.
      eexists. split; [reflexivity|]. now apply put_rel.
    - destruct (re_vec _ _ _ _ _ _ _ HR _ _ _ Rx) as [Ev _]. unfold observe. rewrite Ex, bind_ok, Ev, bind_ok.
      eexists. split; [reflexivity|exact Hst].
    - destruct (re_vec _ _ _ _ _ _ _ HR _ _ _ Rx) as [Ev Hb]. unfold observe. rewrite Ex, bind_ok, Ev, bind_ok, to_string_ok by assumption.
      eexists. split; [reflexivity|exact Hst].
    - destruct (re_vec _ _ _ _ _ _ _ HR _ _ _ Rx) as [Ev Hb]. unfold observe. rewrite Ex, bind_ok, Ev, bind_ok, to_uint_ok by assumption.
      eexists. split; [reflexivity|exact Hst].
    - destruct (re_vec _ _ _ _ _ _ _ HR _ _ _ Rx) as [Ev Hb]. unfold observe, std_hash. rewrite Ex, bind_ok, Ev, bind_ok, to_uint_ok by assumption.
      eexists. split; [reflexivity|exact Hst].
    - destruct (re_copy _ _ _ _ _ _ _ HR _ _ _ _ Rx) as (y & Ey & Ry). rewrite Ex, bind_ok, Ey, bind_ok.
      eexists. split; [reflexivity|]. now apply put_rel.
    - pose proof (re_move _ _ _ _ _ _ _ HR _ _ _ _ Rx) as Ry. rewrite Ex, bind_ok. destruct (oc_move C x) as [y x']. cbn [fst] in Ry.
      eexists. split; [reflexivity|]. apply put_rel; [|exact Ry]. intros k. unfold oput, sput. destruct (k =? j); [cbn; eauto|apply Hst].
    - assert (exists t, sget C st i = Ok t /\
        match s i with NoObject => True | Moved => True | Live o => rel (o_args o) (o_items o) (o_done o) t end) as (t & Et & Rt).
      { pose proof (Hst i) as Hi. destruct (s i) as [| |o'] eqn:Ei.
        - now apply (re_target _ _ _ _ _ _ _ HR) in Ha.
        - destruct Hi as (t & Et). exists t. unfold sget. rewrite Et. auto.
        - destruct Hi as (t & Et & Ht). exists t. unfold sget. rewrite Et. auto. }
      rewrite Et, bind_ok, Ex, bind_ok. destruct (Nat.eqb_spec i j) as [->|N].
      + eexists. split; [reflexivity|]. intros k. unfold oput. destruct (Nat.eqb_spec k j) as [->|_]; [|apply Hst]. rewrite <- E. apply Hst.
      + destruct (re_assign _ _ _ _ _ _ _ HR (s i) t _ _ _ _ Rx Ha Rt) as (z & Ez & Rz). rewrite Ez, bind_ok.
        eexists. split; [reflexivity|]. now apply put_rel.
    - assert (exists t, sget C st i = Ok t) as (t & Et).
      { specialize (Hst i). unfold sget. destruct (s i); [congruence| |]; destruct Hst as (t & H); [rewrite H|destruct H as [H _]; rewrite H]; eauto. }
      rewrite Et, bind_ok, Ex, bind_ok. destruct (Nat.eqb_spec i j) as [->|_]; [congruence|].
      pose proof (re_massign _ _ _ _ _ _ _ HR t _ _ _ _ Rx) as Ry. destruct (oc_massign C t x) as [y x']. cbn [fst] in Ry.
      eexists. split; [reflexivity|]. apply put_rel; [|exact Ry]. intros k. unfold oput, sput. destruct (k =? j); [cbn; eauto|apply Hst].
  Qed.

  Lemma orun_rel p s os s' : orun hash ok_args ok_item may_reset may_assign p s os s' ->
    forall st, (forall k, srel (s k) (st k)) -> exists st', oexec C p st = Ok (os, st') /\ forall k, srel (s' k) (st' k).
  Proof.
    induction 1 as [s|c rest s s1 w os s' Hs Hr IH]; intros st Hst; [exists st; split; [reflexivity|exact Hst]|].
    destruct (ostep_ok _ _ _ _ _ Hs Hst) as (st1 & E1 & R1). destruct (IH st1 R1) as (st' & E' & R').
    exists st'. cbn [oexec]. rewrite E1, bind_ok. cbn [fst snd]. rewrite E'. split; [reflexivity|exact R'].
  Qed.

  Lemma orun_ok p s os s' : orun hash ok_args ok_item may_reset may_assign p s os s' ->
    forall st, (forall k, srel (s k) (st k)) -> exists st', oexec C p st = Ok (os, st').
  Proof. intros H st Hst. destruct (orun_rel _ _ _ _ H st Hst) as (st' & E & _). eauto. Qed.

  Theorem ohistory p os s' : orun hash ok_args ok_item may_reset may_assign p (fun _ => NoObject) os s' ->
    exists st', oexec C p (fun _ => None) = Ok (os, st').
  Proof. intros H. apply (orun_ok _ _ _ _ H). intros k. exact I. Qed.

  Lemma feed_all items : Forall ok_item items -> forall a l x, rel a l false x ->
    exists y, foldM (oc_feed C) items x = Ok y /\ rel a (l ++ items) false y.
  Proof.
    induction 1 as [|d items Hd Hi IH]; intros a l x Hx; cbn [foldM].
    - exists x. rewrite app_nil_r. auto.
    - destruct (re_feed _ _ _ _ _ _ _ HR _ _ _ d Hx Hd) as (y & -> & Ry). rewrite bind_ok.
      destruct (IH _ _ _ Ry) as (z & Ez & Rz). exists z. rewrite <- app_assoc in Rz. auto.
  Qed.

  Theorem ohash_ok a items : ok_args a -> Forall ok_item items -> ohash C a items = Ok (hash a items).
  Proof.
    intros Ha Hi. unfold ohash. destruct (re_construct _ _ _ _ _ _ _ HR a Ha) as (x & -> & Rx). rewrite bind_ok.
    destruct (feed_all items Hi _ _ _ Rx) as (y & -> & Ry). rewrite bind_ok.
    destruct (re_fin _ _ _ _ _ _ _ HR _ _ _ Ry) as (z & -> & Rz). rewrite bind_ok.
    apply (re_vec _ _ _ _ _ _ _ HR _ _ _ Rz).
  Qed.
End History.

(** items and arguments of every object of a promised program are good *)
Lemma orun_good {A} (hash : A -> list (list N) -> list N) ok_args ok_item may_reset may_assign p s os s' :
  orun hash ok_args ok_item may_reset may_assign p s os s' ->
  (forall k o, s k = Live o -> ok_args (o_args o) /\ Forall ok_item (o_items o)) ->
  forall k o, s' k = Live o -> ok_args (o_args o) /\ Forall ok_item (o_items o).
Proof.
  induction 1 as [s|c rest s s1 w os s' Hs Hr IH]; intros H; [exact H|]. apply IH. clear IH Hr.
  assert (forall i x, (forall o, x = Live o -> ok_args (o_args o) /\ Forall ok_item (o_items o)) ->
    forall s0, (forall k o, s0 k = Live o -> ok_args (o_args o) /\ Forall ok_item (o_items o)) ->
    forall k o, oput s0 i x k = Live o -> ok_args (o_args o) /\ Forall ok_item (o_items o)) as P.
  { intros i x Hx s0 H0 k o. unfold oput. destruct (k =? i); [apply Hx|apply H0]. }
  destruct Hs as [i a s Ha|i d a l s E Hd|i a l s E|i a l b s E Hr|i a l s E|i a l s E Hn|i n a l s E|i a l s E|i j o s E|i j o s N E|i j o s E Ha|i j o s N E Hi];
    try exact H; try (pose proof (H _ _ E) as G; cbn [o_args o_items] in G).
  - apply P; [|exact H]. intros o [= <-]. cbn [o_args o_items]. auto.
  - apply P; [|exact H]. intros o [= <-]. cbn [o_args o_items]. rewrite Forall_app. intuition.
  - apply P; [|exact H]. intros o [= <-]. exact G.
  - apply P; [|exact H]. intros o [= <-]. cbn [o_args o_items]. intuition.
  - apply P; [|exact H]. intros o' [= <-]. exact G.
  - apply P; [|apply P; [discriminate|exact H]]. intros o' [= <-]. exact G.
  - apply P; [|exact H]. intros o' [= <-]. exact G.
  - apply P; [|apply P; [discriminate|exact H]]. intros o' [= <-]. exact G.
Qed.

(** what Proof/CShake and Proof/TupleHash establish *)
Definition ObjCorrect C hash ok_args ok_item may_reset may_assign : Prop :=
  exists rel, Realizes C hash ok_args ok_item may_reset may_assign rel.

Theorem objcorrect_hash C hash ok_args ok_item may_reset may_assign :
  ObjCorrect C hash ok_args ok_item may_reset may_assign ->
  forall a items, ok_args a -> Forall ok_item items -> ohash C a items = Ok (hash a items).
Proof. intros (rel & HR). apply (ohash_ok HR). Qed.

Theorem objcorrect_history C hash ok_args ok_item may_reset may_assign :
  ObjCorrect C hash ok_args ok_item may_reset may_assign ->
  forall p os s', orun hash ok_args ok_item may_reset may_assign p (fun _ => NoObject) os s' ->
  exists st', oexec C p (fun _ => None) = Ok (os, st').
Proof. intros (rel & HR). apply (ohistory HR). Qed.

(** the digest of an object in a program is that of a lone object with its arguments, fed its items *)
Theorem objcorrect_lone C hash ok_args ok_item may_reset may_assign :
  ObjCorrect C hash ok_args ok_item may_reset may_assign ->
  forall p os s' i a items, orun hash ok_args ok_item may_reset may_assign p (fun _ => NoObject) os s' ->
  s' i = Live (mkO a items true) ->
  exists st' y d, oexec C p (fun _ => None) = Ok (os, st') /\ st' i = Some y /\ oc_vector C y = Ok d /\ ohash C a items = Ok d.
Proof.
  intros (rel & HR) p os s' i a items H Ei. destruct (orun_rel HR _ _ _ _ H (fun _ => None)) as (st' & E & R); [intros k; exact I|].
  pose proof (R i) as Ri. rewrite Ei in Ri. destruct Ri as (y & Ey & Ry). cbn [o_args o_items o_done] in Ry.
  exists st', y, (hash a items). split; [exact E|]. split; [exact Ey|]. split; [apply (re_vec _ _ _ _ _ _ _ HR _ _ _ Ry)|].
  destruct (orun_good _ _ _ _ _ _ _ _ _ H ltac:(discriminate) i _ Ei) as [Ha Hi]. now apply (ohash_ok HR).
Qed.

(** an object that may be reset is then as good as a newly constructed one *)
Lemma orun_app {A} (hash : A -> list (list N) -> list N) ok_args ok_item may_reset may_assign p q s os s1 os' s' :
  orun hash ok_args ok_item may_reset may_assign p s os s1 -> orun hash ok_args ok_item may_reset may_assign q s1 os' s' ->
  orun hash ok_args ok_item may_reset may_assign (p ++ q) s (os ++ os') s'.
Proof.
  induction 1 as [s|c rest s s1 w os s2 Hs Hr IH]; intros Hq; [exact Hq|].
  specialize (IH Hq). cbn [app]. pose proof (or_cons _ _ _ _ _ c (rest ++ q) s s1 w (os ++ os') s' Hs IH) as G.
  destruct w; exact G.
Qed.

Theorem objcorrect_reset C hash ok_args ok_item may_reset may_assign :
  ObjCorrect C hash ok_args ok_item may_reset may_assign ->
  forall p os s1 i a items b q os' s', orun hash ok_args ok_item may_reset may_assign p (fun _ => NoObject) os s1 ->
  s1 i = Live (mkO a items b) -> may_reset a ->
  orun hash ok_args ok_item may_reset may_assign q (oput s1 i (Live (mkO a [] false))) os' s' ->
  exists st st', oexec C (p ++ Rst i :: q) (fun _ => None) = Ok (os ++ os', st) /\
    oexec C (p ++ Construct i a :: q) (fun _ => None) = Ok (os ++ os', st').
Proof.
  intros HC p os s1 i a items b q os' s' Hp Ei Hr Hq.
  destruct (orun_good _ _ _ _ _ _ _ _ _ Hp ltac:(discriminate) i _ Ei) as [Ha _]. cbn [o_args] in Ha.
  pose proof (or_cons hash ok_args ok_item may_reset may_assign _ _ _ _ None _ _ (os_reset _ _ _ _ _ _ _ _ _ _ Ei Hr) Hq) as G1.
  pose proof (or_cons hash ok_args ok_item may_reset may_assign _ _ _ _ None _ _ (os_construct _ _ _ _ _ i a s1 Ha) Hq) as G2.
  destruct (objcorrect_history _ _ _ _ _ _ HC _ _ _ (orun_app _ _ _ _ _ _ _ _ _ _ _ _ Hp G1)) as (st & E1).
  destruct (objcorrect_history _ _ _ _ _ _ HC _ _ _ (orun_app _ _ _ _ _ _ _ _ _ _ _ _ Hp G2)) as (st' & E2).
  eauto.
Qed.

(** ** Classes with implicit copy operations *)

Section Value.
  Context {A O : Type} {construct : A -> res O} {add : list N -> O -> res O} {fin reset : O -> res O} {arr : O -> res (list N)}.
  Context {hash : A -> list N -> list N} {ok_args may_reset : A -> Prop} {absorb done : A -> list N -> O}.
  Hypothesis Hnew : forall a, ok_args a -> construct a = Ok (absorb a []).
  Hypothesis Hadd : forall a m d, ok_args a -> bytes_ok m -> span_ok d -> add d (absorb a m) = Ok (absorb a (m ++ d)).
  Hypothesis Hfin : forall a m, ok_args a -> bytes_ok m -> fin (absorb a m) = Ok (done a m).
  Hypothesis Harr : forall a m, ok_args a -> bytes_ok m -> arr (done a m) = Ok (hash a m) /\ bytes_ok (hash a m).
  Hypothesis Hreset_a : forall a m, ok_args a -> may_reset a -> bytes_ok m -> reset (absorb a m) = Ok (absorb a []).
  Hypothesis Hreset_d : forall a m, ok_args a -> may_reset a -> bytes_ok m -> reset (done a m) = Ok (absorb a []).

  Definition vrel (a : A) (l : list (list N)) (b : bool) (x : O) : Prop :=
    ok_args a /\ bytes_ok (concat l) /\ x = if b then done a (concat l) else absorb a (concat l).

  Theorem value_correct : ObjCorrect (value_class construct add fin reset arr) (fun a l => hash a (concat l))
    ok_args span_ok may_reset (fun sl _ => sl <> NoObject).
  Proof.
    exists vrel. constructor; cbn [value_class Args OObj oc_construct oc_feed oc_finalize oc_reset oc_vector oc_copy oc_move oc_assign oc_massign].
    - intros a Ha. exists (absorb a []). split; [auto|]. split; [exact Ha|]. split; [constructor|reflexivity].
    - intros a l x d (Ha & Hl & ->) Hd. exists (absorb a (concat l ++ d)). split; [auto|].
      split; [exact Ha|]. rewrite concat_app. cbn [concat]. rewrite app_nil_r. split; [|reflexivity].
      apply Forall_app. split; [exact Hl|apply Hd].
    - intros a l x (Ha & Hl & ->). exists (done a (concat l)). split; [auto|]. split; auto.
    - intros a l b x (Ha & Hl & ->) Hr. exists (absorb a []). split; [destruct b; auto|].
      split; [exact Ha|]. split; [constructor|reflexivity].
    - intros a l x (Ha & Hl & ->). auto.
    - intros a l b x Hx. exists x. auto.
    - intros a l b x Hx. exact Hx.
    - intros sl x a l b y Hy _ _. exists y. auto.
    - intros x a l b y Hy. exact Hy.
    - intros a H. now apply H.
  Qed.
End Value.
