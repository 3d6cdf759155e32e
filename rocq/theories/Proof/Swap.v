(** std::swap exchanges two objects. *)
From Coq Require Import List NArith ZArith Arith Bool Lia.
From Verif.Base Require Import Res.
From Verif.Spec Require Import Words Client ObjClient Swap KeccakTypes CShakeArgs.
From Verif.Model Require Import Buffer Stream Api ObjApi.
From Verif.Model Require KeccakObj.
From Verif.Proof Require Import ObjApi.
Import ListNotations.

Definition shown {A B} (r : res (A * B)) : res A := let! x := r in Ok (fst x).

Lemma other_other i j n : other i j (other i j n) = n.
Proof.
  unfold other. destruct (Nat.eqb_spec n i) as [->|]; [|destruct (Nat.eqb_spec n j) as [->|]].
  - rewrite Nat.eqb_refl. destruct (Nat.eqb_spec j i); congruence.
  - now rewrite Nat.eqb_refl.
  - destruct (Nat.eqb_spec n i); [congruence|]. destruct (Nat.eqb_spec n j); congruence.
Qed.
Lemma other_inj i j a b : other i j a = other i j b -> a = b.
Proof. intros H. rewrite <- (other_other i j a), H. apply other_other. Qed.
Lemma other_far t i j : t <> i -> t <> j -> other i j t = t.
Proof. intros H1 H2. unfold other. destruct (Nat.eqb_spec t i); [contradiction|]. destruct (Nat.eqb_spec t j); [contradiction|reflexivity]. Qed.

(** ** objects that are constructed and moved *)
Section Objects.
  Variable C : ObjClass.
  Variables (t : nat) (f : nat -> nat).
  Hypothesis Hinj : forall a b, f a = f b -> a = b.
  Hypothesis Ht : f t = t.

  (** the same objects under other names, but for [t] *)
  Definition same (s1 s2 : ostore C) : Prop := forall n, n <> t -> s1 n = s2 (f n).
  Definition agree {X} (r1 r2 : res (ostore C * X)) : Prop :=
    match r1, r2 with
    | Ok (s1, w1), Ok (s2, w2) => same s1 s2 /\ w1 = w2
    | Throw e1, Throw e2 => e1 = e2
    | Ub u1, Ub u2 => u1 = u2
    | _, _ => False
    end.

  Lemma eqb_f a b : (f a =? f b) = (a =? b).
  Proof using Hinj. destruct (Nat.eqb_spec a b) as [->|H]; [apply Nat.eqb_refl|]. apply Nat.eqb_neq. intros E. apply H, Hinj, E. Qed.
  Lemma same_put s1 s2 n x : same s1 s2 -> same (sput C s1 n x) (sput C s2 (f n) x).
  Proof using Hinj. intros H m Hm. unfold sput. rewrite eqb_f. destruct (m =? n); [reflexivity|]. now apply H. Qed.

  Lemma agree_update s1 s2 n g : same s1 s2 -> n <> t -> agree (update C s1 n g) (update C s2 (f n) g).
  Proof using Hinj.
    intros H Hn. unfold update, sget. rewrite (H n Hn). destruct (s2 (f n)) as [x|]; cbn [bind agree]; [|reflexivity].
    destruct (g x); cbn [bind]; [|reflexivity..]. split; [now apply same_put|reflexivity].
  Qed.
  Lemma agree_observe s1 s2 n g : same s1 s2 -> n <> t -> agree (observe C s1 n g) (observe C s2 (f n) g).
  Proof using.
    intros H Hn. unfold observe, sget. rewrite (H n Hn). destruct (s2 (f n)) as [x|]; cbn [bind agree]; [|reflexivity].
    destruct (oc_vector C x); cbn [bind]; [|reflexivity..]. destruct (g a); cbn [bind]; [|reflexivity..]. split; [exact H|reflexivity].
  Qed.

  Lemma agree_cmd c s1 s2 : avoids t c -> same s1 s2 -> agree (exec_ocmd C c s1) (exec_ocmd C (rename f c) s2).
  Proof using Hinj.
    unfold avoids. intros Hc H. destruct c; cbn [slots In] in Hc; cbn [rename exec_ocmd];
      try (apply agree_update; [exact H|intuition]); try (apply agree_observe; [exact H|intuition]).
    - destruct (oc_construct C a); cbn [bind agree]; [|reflexivity..]. split; [now apply same_put|reflexivity].
    - unfold sget. rewrite (H src) by intuition. destruct (s2 (f src)) as [y|]; cbn [bind agree]; [|reflexivity].
      destruct (oc_copy C y); cbn [bind]; [|reflexivity..]. split; [now apply same_put|reflexivity].
    - unfold sget. rewrite (H src) by intuition. destruct (s2 (f src)) as [y|]; cbn [bind agree]; [|reflexivity].
      destruct (oc_move C y) as [x z]. split; [now do 2 apply same_put|reflexivity].
    - unfold sget. rewrite (H dst), (H src) by intuition. destruct (s2 (f dst)) as [x|]; cbn [bind agree]; [|reflexivity].
      destruct (s2 (f src)) as [y|]; cbn [bind]; [|reflexivity]. rewrite eqb_f. destruct (dst =? src); [split; [exact H|reflexivity]|].
      destruct (oc_assign C x y); cbn [bind]; [|reflexivity..]. split; [now apply same_put|reflexivity].
    - unfold sget. rewrite (H dst), (H src) by intuition. destruct (s2 (f dst)) as [x|]; cbn [bind agree]; [|reflexivity].
      destruct (s2 (f src)) as [y|]; cbn [bind]; [|reflexivity]. rewrite eqb_f. destruct (dst =? src); [split; [exact H|reflexivity]|].
      destruct (oc_massign C x y) as [u v]. split; [now do 2 apply same_put|reflexivity].
  Qed.

  Theorem same_shown q : Forall (avoids t) q -> forall s1 s2, same s1 s2 ->
    shown (oexec C q s1) = shown (oexec C (map (rename f) q) s2).
  Proof using Hinj.
    unfold shown. induction 1 as [|c q Hc Hq IH]; intros s1 s2 H; cbn [map oexec bind fst]; [reflexivity|].
    pose proof (agree_cmd c s1 s2 Hc H) as Ha.
    destruct (exec_ocmd C c s1) as [[a w]|e|u], (exec_ocmd C (rename f c) s2) as [[a' w']|e'|u']; cbn [agree] in Ha; try contradiction; cbn [bind].
    - destruct Ha as [Hs ->]. specialize (IH _ _ Hs). cbn [fst snd]. rewrite !bind_assoc.
      destruct (oexec C q a) as [[o1 x1]|e|u], (oexec C (map (rename f) q) a') as [[o2 x2]|e'|u']; cbn [bind fst snd] in *; first [congruence | injection IH as ->; reflexivity].
    - now rewrite Ha.
    - now rewrite Ha.
  Qed.
End Objects.

Lemma oexec_app C p q : forall s, oexec C (p ++ q) s =
  let! r := oexec C p s in let! u := oexec C q (snd r) in Ok (fst r ++ fst u, snd u).
Proof.
  induction p as [|c p IH]; intros s; cbn [app oexec bind fst snd].
  - destruct (oexec C q s) as [[o x]|e|u]; reflexivity.
  - destruct (exec_ocmd C c s) as [[s' w]|e|u]; cbn [bind fst snd]; [|reflexivity..]. rewrite IH.
    destruct (oexec C p s') as [[o x]|e|u]; cbn [bind fst snd]; [|reflexivity..].
    destruct (oexec C q x) as [[o' x']|e|u]; cbn [bind fst snd]; [|reflexivity..]. destruct w; reflexivity.
Qed.
Lemma shown_app C p q s : shown (oexec C (p ++ q) s) =
  let! r := oexec C p s in let! o := shown (oexec C q (snd r)) in Ok (fst r ++ o).
Proof.
  rewrite oexec_app. unfold shown. destruct (oexec C p s) as [[o x]|e|u]; cbn [bind fst snd]; [|reflexivity..].
  destruct (oexec C q x) as [[o' x']|e|u]; reflexivity.
Qed.

(** Classes whose moves hand over everything that matters. *)
Definition hands_over (C : ObjClass) : Prop :=
  (forall y, fst (oc_move C y) = y) /\ (forall x y, fst (oc_massign C x y) = y).

Lemma swap_stores C t i j s x y : hands_over C -> t <> i -> t <> j -> s i = Some x -> s j = Some y ->
  exists s', oexec C (swap t i j) s = Ok ([], s') /\ (forall n, n <> t -> s' n = s (other i j n)).
Proof.
  intros [H1 H2] Hi Hj Ei Ej. unfold swap. cbn [oexec exec_ocmd]. unfold sget.
  rewrite Ei. cbn [bind]. specialize (H1 x). destruct (oc_move C x) as [x' z]. cbn [fst] in H1. subst x'. cbn [bind fst snd].
  assert (forall a (m : ostore C) v, sput C m a v a = Some v) as Same by (intros; unfold sput; now rewrite Nat.eqb_refl).
  assert (forall a b (m : ostore C) v, b <> a -> sput C m a v b = m b) as Far.
  { intros a b m v Hab. unfold sput. destruct (Nat.eqb_spec b a); [contradiction|reflexivity]. }
  destruct (Nat.eq_dec i j) as [<-|Hij].
  - assert (y = x) as -> by congruence. rewrite !(Far t i) by congruence. rewrite !Same. cbn [bind]. rewrite Nat.eqb_refl. cbn [bind fst snd].
    rewrite !(Far t i) by congruence. rewrite !Same. cbn [bind]. destruct (Nat.eqb_spec i t) as [|_]; [congruence|].
    specialize (H2 z x). destruct (oc_massign C z x) as [u v]. cbn [fst] in H2. subst u. cbn [bind fst snd].
    eexists. split; [reflexivity|]. intros n Hn. unfold other.
    destruct (Nat.eqb_spec n i) as [->|Hni]; [now rewrite Same|]. now rewrite !Far by congruence.
  - rewrite (Far t i) by congruence. rewrite Same. rewrite (Far t j), (Far i j), Ej by congruence. cbn [bind].
    destruct (Nat.eqb_spec i j) as [|_]; [contradiction|].
    specialize (H2 z y) as H3. destruct (oc_massign C z y) as [u v]. cbn [fst] in H3. subst u. cbn [bind fst snd].
    rewrite (Far i j), Same by congruence. rewrite (Far i t), (Far j t), Same by congruence. cbn [bind].
    destruct (Nat.eqb_spec j t) as [|_]; [congruence|].
    specialize (H2 v x) as H3. destruct (oc_massign C v x) as [u w]. cbn [fst] in H3. subst u. cbn [bind fst snd].
    eexists. split; [reflexivity|]. intros n Hn. unfold other.
    destruct (Nat.eqb_spec n i) as [->|Hni]; [|destruct (Nat.eqb_spec n j) as [->|Hnj]].
    + rewrite (Far j i), (Far t i) by congruence. now rewrite Same.
    + now rewrite Same.
    + now rewrite !Far by congruence.
Qed.

Theorem swap_ok C t i j p q s0 os s : hands_over C -> t <> i -> t <> j -> oexec C p s0 = Ok (os, s) -> s i <> None -> s j <> None ->
  Forall (avoids t) q ->
  shown (oexec C (p ++ swap t i j ++ q) s0) = shown (oexec C (p ++ map (rename (other i j)) q) s0).
Proof.
  intros HC Hi Hj Hp Ei Ej Hq. rewrite !shown_app, Hp, !bind_ok. cbn [fst snd].
  destruct (s i) as [x|] eqn:E1; [|contradiction]. destruct (s j) as [y|] eqn:E2; [|contradiction].
  destruct (swap_stores C t i j s x y HC Hi Hj E1 E2) as (s' & E & Hs). rewrite shown_app, E, bind_ok. cbn [fst snd app].
  rewrite (same_shown C t (other i j) (other_inj i j) q Hq s' s Hs). now destruct (shown _).
Qed.

(** many swaps *)
Lemma origin_inj ws : forall a b, origin ws a = origin ws b -> a = b.
Proof. induction ws as [|[i j] ws IH]; intros a b H; cbn [origin] in H; [exact H|]. apply IH, (other_inj i j), H. Qed.
Definition far (t : nat) (w : nat * nat) : Prop := t <> fst w /\ t <> snd w.
Definition alive {C} (s : ostore C) (w : nat * nat) : Prop := s (fst w) <> None /\ s (snd w) <> None.

Lemma swaps_stores C t ws : hands_over C -> Forall (far t) ws -> forall s, Forall (alive s) ws ->
  exists s', oexec C (swaps swap t ws) s = Ok ([], s') /\ (forall n, n <> t -> s' n = s (origin ws n)).
Proof.
  intros HC Hw. induction Hw as [|[i j] ws [Hi Hj] Hw IH]; intros s Hs; cbn [swaps].
  - exists s. split; [reflexivity|]. intros n _. reflexivity.
  - inversion Hs as [|? ? [H1 H2] Hr]; subst. cbn [fst snd] in *.
    destruct (s i) as [x|] eqn:E1; [|contradiction]. destruct (s j) as [y|] eqn:E2; [|contradiction].
    destruct (swap_stores C t i j s x y HC Hi Hj E1 E2) as (s1 & Ea & Ha).
    assert (forall n, n <> t -> s n <> None -> s1 n <> None) as Keep.
    { intros n Hn Hx. rewrite Ha by exact Hn. unfold other. destruct (n =? i); [congruence|]. destruct (n =? j); congruence. }
    destruct (IH s1) as (s2 & Eb & Hb).
    { rewrite Forall_forall in Hr, Hw |- *. intros w Hin. destruct (Hr w Hin), (Hw w Hin). split; apply Keep; auto. }
    exists s2. rewrite oexec_app, Ea, bind_ok. cbn [fst snd]. rewrite Eb. split; [reflexivity|]. intros n Hn. rewrite Hb by exact Hn. cbn [origin].
    apply Ha. intros E. clear - E Hw Hn. apply Hn. revert E. induction Hw as [|[i j] ws [H1 H2] _ IH]; cbn [origin]; intros E; [exact E|].
    cbn [fst snd] in *. unfold other in E. destruct (Nat.eqb_spec (origin ws n) i); [congruence|]. destruct (Nat.eqb_spec (origin ws n) j); [congruence|]. exact (IH E).
Qed.
Theorem swaps_ok C t ws p q s0 os s : hands_over C -> Forall (far t) ws -> oexec C p s0 = Ok (os, s) -> Forall (alive s) ws ->
  Forall (avoids t) q ->
  shown (oexec C (p ++ swaps swap t ws ++ q) s0) = shown (oexec C (p ++ map (rename (origin ws)) q) s0).
Proof.
  intros HC Hw Hp Hs Hq. rewrite !shown_app, Hp, !bind_ok. cbn [fst snd].
  destruct (swaps_stores C t ws HC Hw s Hs) as (s' & E & H). rewrite shown_app, E, bind_ok. cbn [fst snd app].
  rewrite (same_shown C t (origin ws) (origin_inj ws) q Hq s' s H). now destruct (shown _).
Qed.

Lemma value_hands {A O} construct add fin reset arr : hands_over (@value_class A O construct add fin reset arr).
Proof. split; reflexivity. Qed.
Lemma keccak_hands t dbg : hands_over (KeccakObj.objects t dbg).
Proof. split; reflexivity. Qed.

(** ** objects that are values *)
Section Values.
  Variable C : HashClass.
  Variables (t : nat) (f : nat -> nat).
  Hypothesis Hinj : forall a b, f a = f b -> a = b.
  Definition vsame (s1 s2 : store C) : Prop := forall n, n <> t -> s1 n = s2 (f n).
  Lemma vsame_put s1 s2 n x : vsame s1 s2 -> vsame (put C s1 n x) (put C s2 (f n) x).
  Proof using Hinj. intros H m Hm. unfold put. rewrite (eqb_f f Hinj). destruct (m =? n); [reflexivity|]. now apply H. Qed.
  Theorem vsame_shown q : Forall (cmd_avoids t) q -> forall s1 s2, vsame s1 s2 ->
    shown (exec C q s1) = shown (exec C (map (rename_cmd f) q) s2).
  Proof using Hinj.
    unfold shown. induction 1 as [|c q Hc Hq IH]; intros s1 s2 H; cbn [map exec bind fst]; [reflexivity|].
    unfold cmd_avoids in Hc. destruct c as [i o|i j]; cbn [cmd_slots In] in Hc; cbn [rename_cmd exec].
    - rewrite (H i) by intuition. destruct (exec_op C o (s2 (f i))) as [[x w]|e|u]; cbn [bind fst snd]; [|reflexivity..].
      specialize (IH _ _ (vsame_put s1 s2 i x H)). rewrite !bind_assoc.
      destruct (exec C q (put C s1 i x)) as [[o1 x1]|e|u], (exec C (map (rename_cmd f) q) (put C s2 (f i) x)) as [[o2 x2]|e'|u']; cbn [bind fst snd] in *;
        first [congruence | injection IH as ->; reflexivity].
    - rewrite (H j) by intuition. apply IH. now apply vsame_put.
  Qed.
End Values.

Lemma exec_app C p q : forall s, exec C (p ++ q) s = let! r := exec C p s in let! u := exec C q (snd r) in Ok (fst r ++ fst u, snd u).
Proof.
  induction p as [|[i o|i j] p IH]; intros s; cbn [app exec bind fst snd].
  - destruct (exec C q s) as [[o x]|e|u]; reflexivity.
  - destruct (exec_op C o (s i)) as [[x w]|e|u]; cbn [bind fst snd]; [|reflexivity..]. rewrite IH.
    destruct (exec C p (put C s i x)) as [[o1 x1]|e|u]; cbn [bind fst snd]; [|reflexivity..].
    destruct (exec C q x1) as [[o' x']|e|u]; cbn [bind fst snd]; [|reflexivity..]. destruct w; reflexivity.
  - apply IH.
Qed.
Lemma vswaps_stores C t ws : Forall (far t) ws -> forall s,
  exists s', exec C (swaps cmd_swap t ws) s = Ok ([], s') /\ (forall n, n <> t -> s' n = s (origin ws n)).
Proof.
  intros Hw. induction Hw as [|[i j] ws [Hi Hj] Hw IH]; intros s; cbn [swaps].
  - exists s. split; [reflexivity|]. intros n _. reflexivity.
  - cbn [fst snd] in *. rewrite exec_app. cbn [cmd_swap exec bind fst snd]. set (s1 := put _ _ _ _).
    destruct (IH s1) as (s2 & Eb & Hb). rewrite Eb. cbn [bind fst snd app]. exists s2. split; [reflexivity|]. intros n Hn. rewrite Hb by exact Hn. cbn [origin].
    assert (origin ws n <> t) as Ho.
    { intros E. clear - E Hw Hn. apply Hn. revert E. induction Hw as [|[i j] ws [H1 H2] _ IH]; cbn [origin]; intros E; [exact E|].
      cbn [fst snd] in *. unfold other in E. destruct (Nat.eqb_spec (origin ws n) i); [congruence|]. destruct (Nat.eqb_spec (origin ws n) j); [congruence|]. exact (IH E). }
    generalize dependent (origin ws n). intros m Ho. unfold s1, put, other.
    destruct (Nat.eqb_spec m j) as [->|Hmj].
    + destruct (Nat.eqb_spec t i) as [|_]; [contradiction|]. destruct (Nat.eqb_spec t t); [|contradiction]. destruct (Nat.eqb_spec j i); congruence.
    + destruct (Nat.eqb_spec m i) as [->|Hmi]; [destruct (Nat.eqb_spec j t); [congruence|reflexivity]|]. destruct (Nat.eqb_spec m t); [contradiction|reflexivity].
Qed.
Theorem vswaps_ok C t ws p q s0 : Forall (far t) ws -> Forall (cmd_avoids t) q ->
  shown (exec C (p ++ swaps cmd_swap t ws ++ q) s0) = shown (exec C (p ++ map (rename_cmd (origin ws)) q) s0).
Proof.
  intros Hw Hq. unfold shown. rewrite !exec_app. destruct (exec C p s0) as [[o x]|e|u]; cbn [bind fst snd]; [|reflexivity..].
  rewrite exec_app. destruct (vswaps_stores C t ws Hw x) as (s' & E & H). rewrite E. cbn [bind fst snd app].
  pose proof (vsame_shown C t (origin ws) (origin_inj ws) q Hq s' x H) as Hs. unfold shown in Hs.
  destruct (exec C q s') as [[o1 x1]|e|u], (exec C (map (rename_cmd (origin ws)) q) x) as [[o2 x2]|e'|u']; cbn [bind fst snd] in *; congruence.
Qed.

(** ** objects with pointers *)
Section Promised.
  Context {A : Type}.
  Variables (hash : A -> list (list N) -> list N) (ok_args : A -> Prop) (ok_item : list N -> Prop) (may_reset : A -> Prop) (may_assign : slot A -> A -> Prop).
  Let run := orun hash ok_args ok_item may_reset may_assign.
  Variables (t : nat) (f : nat -> nat).
  Hypothesis Hinj : forall a b, f a = f b -> a = b.
  Definition psame (s1 s2 : nat -> slot A) : Prop := forall n, n <> t -> s1 n = s2 (f n).
  Lemma psame_put s1 s2 n x : psame s1 s2 -> psame (oput s1 n x) (oput s2 (f n) x).
  Proof using Hinj. intros H m Hm. unfold oput. rewrite (eqb_f f Hinj). destruct (m =? n); [reflexivity|]. now apply H. Qed.

  Lemma prun q s1 os s1' : run q s1 os s1' -> Forall (avoids t) q -> forall s2, psame s1 s2 -> exists s2', run (map (rename f) q) s2 os s2'.
  Proof using Hinj.
    unfold run. induction 1 as [s|c rest s s1a w os s' Hc Hr IH]; intros Hq s2 H; cbn [map]; [exists s2; constructor|].
    inversion Hq as [|? ? Hc1 Hq1]; subst.
    assert (exists s2a, ostep hash ok_args ok_item may_reset may_assign (rename f c) s2 s2a w /\ psame s1a s2a) as (s2a & Hs & H').
    { unfold avoids in Hc1. destruct Hc; cbn [slots In] in Hc1; cbn [rename];
        repeat match goal with E : s ?n = _ |- _ => rewrite (H n) in E by intuition end.
      - eexists. split; [now constructor|]. now apply psame_put.
      - eexists. split; [econstructor; eassumption|]. now apply psame_put.
      - eexists. split; [econstructor; eassumption|]. now apply psame_put.
      - eexists. split; [econstructor; eassumption|]. now apply psame_put.
      - eexists. split; [econstructor; eassumption|]. exact H.
      - eexists. split; [econstructor; eassumption|]. exact H.
      - eexists. split; [econstructor; eassumption|]. exact H.
      - eexists. split; [econstructor; eassumption|]. exact H.
      - eexists. split; [econstructor; eassumption|]. now apply psame_put.
      - eexists. split; [econstructor; [intros E; now apply Hinj in E|eassumption]|]. now do 2 apply psame_put.
      - rewrite (H i) in * by intuition. eexists. split; [econstructor; eassumption|]. now apply psame_put.
      - rewrite (H i) in * by intuition. eexists. split; [econstructor; [intros E; now apply Hinj in E|eassumption|assumption]|]. now do 2 apply psame_put. }
    destruct (IH Hq1 s2a H') as (s2' & Hrun). exists s2'. econstructor; eassumption.
  Qed.
End Promised.

Lemma rename_twice {A} i j (q : list (ocmd A)) : map (rename (other i j)) (map (rename (other i j)) q) = q.
Proof.
  rewrite map_map. rewrite <- (map_id q) at 2. apply map_ext. intros []; cbn [rename]; now rewrite ?other_other.
Qed.
Lemma rename_avoids {A} t i j (q : list (ocmd A)) : t <> i -> t <> j -> Forall (avoids t) q -> Forall (avoids t) (map (rename (other i j)) q).
Proof.
  intros Hi Hj H. apply Forall_map. eapply Forall_impl; [|exact H]. intros c Hc Hin. apply Hc. clear - Hi Hj Hin.
  assert (forall n, other i j n = t -> n = t) as E.
  { intros n En. rewrite <- (other_far t i j Hi Hj) in En. now apply other_inj in En. }
  destruct c; cbn [rename slots In] in *; intuition.
Qed.

Lemma orun_app {A} hash ok_args ok_item may_reset may_assign p : forall s os s1 q os' s',
  @orun A hash ok_args ok_item may_reset may_assign p s os s1 -> orun hash ok_args ok_item may_reset may_assign q s1 os' s' ->
  orun hash ok_args ok_item may_reset may_assign (p ++ q) s (os ++ os') s'.
Proof.
  intros s os s1 q os' s' H. induction H as [|c rest s s1a w os s1 Hc Hr IH]; intros Hq; [exact Hq|]. cbn [app].
  replace (match w with Some x => x :: os | None => os end ++ os') with (match w with Some x => x :: (os ++ os') | None => os ++ os' end) by (destruct w; reflexivity).
  econstructor; [exact Hc|now apply IH].
Qed.

Theorem promised_swap C hash ok_args ok_item may_reset may_assign : ObjCorrect C hash ok_args ok_item may_reset may_assign ->
  forall t i j p q os s a b os' s', t <> i -> t <> j -> i <> j ->
  orun hash ok_args ok_item may_reset may_assign p (fun _ => NoObject) os s -> s i = Live a -> s j = Live b ->
  Forall (avoids t) q -> orun hash ok_args ok_item may_reset may_assign (map (rename (other i j)) q) s os' s' ->
  exists st st', oexec C (p ++ swap t i j ++ q) (fun _ => None) = Ok (os ++ os', st) /\
    oexec C (p ++ map (rename (other i j)) q) (fun _ => None) = Ok (os ++ os', st').
Proof.
  intros HC t i j p q os s a b os' s' Hi Hj Hij Hp Ei Ej Hq Hr.
  set (s3 := oput (oput (oput (oput (oput (oput s i Moved) t (Live a)) j Moved) i (Live b)) t Moved) j (Live a)).
  assert (orun hash ok_args ok_item may_reset may_assign (swap t i j) s [] s3) as Hsw.
  { unfold swap. change (@nil obs) with (match @None obs with Some x => x :: [] | None => [] end).
    eapply or_cons; [apply (os_move _ _ _ _ _ t i a); [exact Hi|exact Ei]|].
    change (@nil obs) with (match @None obs with Some x => x :: [] | None => [] end).
    eapply or_cons; [apply (os_massign _ _ _ _ _ i j b); [exact Hij| |]|].
    - unfold oput. destruct (Nat.eqb_spec j t); [congruence|]. destruct (Nat.eqb_spec j i); [congruence|]. exact Ej.
    - unfold oput. destruct (Nat.eqb_spec i t); [congruence|]. rewrite Nat.eqb_refl. discriminate.
    - change (@nil obs) with (match @None obs with Some x => x :: [] | None => [] end).
      eapply or_cons; [apply (os_massign _ _ _ _ _ j t a); [congruence| |]|apply or_nil].
      + unfold oput. destruct (Nat.eqb_spec t i); [congruence|]. destruct (Nat.eqb_spec t j); [congruence|]. rewrite Nat.eqb_refl. reflexivity.
      + unfold oput. destruct (Nat.eqb_spec j i); [congruence|]. rewrite Nat.eqb_refl. discriminate. }
  assert (psame t (other i j) s s3) as Hs.
  { intros n Hn. unfold s3, oput, other. destruct (Nat.eqb_spec n i) as [->|H1]; [|destruct (Nat.eqb_spec n j) as [->|H2]].
    - now rewrite Nat.eqb_refl.
    - destruct (Nat.eqb_spec i j); [congruence|]. destruct (Nat.eqb_spec i t); [congruence|]. now rewrite Nat.eqb_refl.
    - repeat match goal with |- context [?x =? ?y] => destruct (Nat.eqb_spec x y); [congruence|] end. reflexivity. }
  destruct (prun _ _ _ _ _ t (other i j) (other_inj i j) _ _ _ _ Hr (rename_avoids t i j q Hi Hj Hq) s3 Hs) as (s4 & H4). rewrite rename_twice in H4.
  destruct (objcorrect_history _ _ _ _ _ _ HC _ _ _ (orun_app _ _ _ _ _ _ _ _ _ _ _ _ Hp (orun_app _ _ _ _ _ _ _ _ _ _ _ _ Hsw H4))) as (st & E).
  destruct (objcorrect_history _ _ _ _ _ _ HC _ _ _ (orun_app _ _ _ _ _ _ _ _ _ _ _ _ Hp Hr)) as (st' & E').
  exists st, st'. split; [exact E|exact E'].
Qed.

(** programs that read nothing show nothing *)
Definition reads {A} (c : ocmd A) : bool := match c with Vec _ | Str _ | Uint _ _ | Std _ => true | _ => false end.
Lemma silent C p : Forall (fun c => reads c = false) p -> forall s os st, oexec C p s = Ok (os, st) -> os = [].
Proof.
  induction 1 as [|c p Hc Hp IH]; intros s os st E; cbn [oexec] in E; [now injection E as <- _|].
  assert (forall s' w, exec_ocmd C c s = Ok (s', w) -> w = None) as Hw.
  { intros s' w Ec. destruct c; try discriminate Hc; cbn [exec_ocmd] in Ec; unfold update in Ec;
      repeat (match type of Ec with
        | bind ?r _ = Ok _ => destruct r; cbn [bind] in Ec; try discriminate Ec
        | (let (_, _) := ?r in _) = Ok _ => destruct r
        | (if ?b then _ else _) = Ok _ => destruct b
        end); now injection Ec as _ <-. }
  destruct (exec_ocmd C c s) as [[s' w]|e|u]; cbn [bind] in E; try discriminate E. specialize (Hw s' w eq_refl). subst w. cbn [fst snd] in E.
  destruct (oexec C p s') as [[o x]|e|u] eqn:Ep; cbn [bind fst snd] in E; try discriminate E. injection E as <- _. now apply IH in Ep.
Qed.
