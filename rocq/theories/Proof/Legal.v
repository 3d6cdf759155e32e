(** Consequences of correctness for all legal programs. *)
From Coq Require Import List NArith Arith Bool Lia.
From Verif.Base Require Import Res.
From Verif.Spec Require Import Words Client Legal.
From Verif.Model Require Import Stream Api.
From Verif.Proof Require Import Api.
Import ListNotations.

(** a legal program has a promise *)
Lemma legal_runs (hash : list N -> list N) (ne : Prop) : (ne -> forall m, hash m <> []) ->
  forall p b b', legal ne p b b' -> forall s, (forall i, a_done (s i) = b i) ->
  exists os s', arun hash (fun _ => True) p s os s' /\ forall i, a_done (s' i) = b' i.
Proof.
  intros Hne. induction 1 as [b|i o rest b c b' Ho Hr IH|i j rest b b' Hr IH]; intros s Hs.
  - exists [], s. split; [constructor|exact Hs].
  - assert (exists a' w, astep hash (fun _ => True) o (s i) a' w /\ a_done a' = c) as (a' & w & Ha & Hc).
    { pose proof (Hs i) as E. destruct (s i) as [m f]. cbn [a_done] in E. subst f.
      inversion Ho; subst; do 2 eexists; (split; [constructor; auto|reflexivity]). }
    destruct (IH (aput s i a')) as (os & s' & H & E).
    { intros k. unfold aput, set_flag. destruct (k =? i); auto. }
    eexists. exists s'. split; [eapply ar_on; eassumption|exact E].
  - destruct (IH (aput s i (s j))) as (os & s' & H & E).
    { intros k. unfold aput, set_flag. destruct (k =? i); auto. }
    exists os, s'. split; [now constructor|exact E].
Qed.

Lemma legal_promise hash (ne : Prop) p : (ne -> forall m, hash m <> []) -> legal_program ne p ->
  exists os s', arun hash (fun _ => True) p (fun _ => afresh) os s'.
Proof.
  intros Hne (b & H). destruct (legal_runs hash ne Hne _ _ _ H (fun _ => afresh)) as (os & s' & Hr & _); [reflexivity|]. eauto.
Qed.

(** ** no failure, and the same observations in both builds *)

Theorem legal_ok C hash (ne : Prop) p : Correct C hash (fun _ => True) -> (ne -> forall m, hash m <> []) -> legal_program ne p ->
  exists os st, exec C p (fun _ => c_new C) = Ok (os, st).
Proof.
  intros HC Hne Hp. destruct (legal_promise hash ne p Hne Hp) as (os & s' & H).
  destruct (correct_history _ _ _ HC _ _ _ H) as (st & E). eauto.
Qed.

Theorem legal_same C1 C2 hash (ne : Prop) p : Correct C1 hash (fun _ => True) -> Correct C2 hash (fun _ => True) ->
  (ne -> forall m, hash m <> []) -> legal_program ne p ->
  exists os st1 st2, exec C1 p (fun _ => c_new C1) = Ok (os, st1) /\ exec C2 p (fun _ => c_new C2) = Ok (os, st2).
Proof.
  intros H1 H2 Hne Hp. destruct (legal_promise hash ne p Hne Hp) as (os & s' & H).
  destruct (correct_history _ _ _ H1 _ _ _ H) as (st1 & E1). destruct (correct_history _ _ _ H2 _ _ _ H) as (st2 & E2). eauto.
Qed.

(** ** reset *)

Theorem legal_reset C hash (ne : Prop) p os st : Correct C hash (fun _ => True) -> (ne -> forall m, hash m <> []) -> legal_program ne p ->
  exec C p (fun _ => c_new C) = Ok (os, st) ->
  forall i, c_reset C (st i) = c_new C.
Proof.
  intros (ab & dn & HI) Hne Hp E i. destruct (legal_promise hash ne p Hne Hp) as (os' & s' & H).
  destruct (run_rel HI _ _ _ _ H (fun _ => c_new C)) as (st' & E' & R); [intros k; apply (rel_fresh HI)|].
  rewrite E in E'. injection E' as <- <-. destruct (R i) as [Hb Hr].
  destruct (a_done (s' i)).
  - destruct Hr as [Hd ->]. now apply (im_reset_d _ _ _ _ _ HI).
  - rewrite Hr. now apply (im_reset_a _ _ _ _ _ HI).
Qed.

Theorem legal_reset_program C hash (ne : Prop) p os st : Correct C hash (fun _ => True) -> (ne -> forall m, hash m <> []) -> legal_program ne p ->
  exec C p (fun _ => c_new C) = Ok (os, st) ->
  forall i q, exec C (On i Reset :: q) st = exec C q (put C st i (c_new C)).
Proof.
  intros HC Hne Hp E i q. cbn [exec exec_op bind fst snd]. rewrite (legal_reset C hash ne p os st HC Hne Hp E i).
  destruct (exec C q (put C st i (c_new C))) as [[os' st']| |]; reflexivity.
Qed.

(** ** chunks *)

Theorem same_bytes C hash dom xs ys : Correct C hash dom -> Forall span_ok xs -> Forall span_ok ys -> concat xs = concat ys ->
  hash_chunks C xs = hash_chunks C ys.
Proof.
  intros (ab & dn & HI) Hx Hy E. unfold hash_chunks.
  pose proof (foldM_absorb HI xs Hx [] (Forall_nil _)) as Ex. pose proof (foldM_absorb HI ys Hy [] (Forall_nil _)) as Ey.
  rewrite <- (im_new _ _ _ _ _ HI) in Ex, Ey. now rewrite Ex, Ey, E.
Qed.

Theorem same_object C hash dom xs ys x y : Correct C hash dom -> Forall span_ok xs -> Forall span_ok ys -> concat xs = concat ys ->
  foldM (c_add C) xs (c_new C) = Ok x -> foldM (c_add C) ys (c_new C) = Ok y -> x = y.
Proof.
  intros (ab & dn & HI) Hx Hy E.
  pose proof (foldM_absorb HI xs Hx [] (Forall_nil _)) as Ex. pose proof (foldM_absorb HI ys Hy [] (Forall_nil _)) as Ey.
  rewrite <- (im_new _ _ _ _ _ HI) in Ex, Ey. rewrite Ex, Ey, E. congruence.
Qed.

(** ** read-outs *)

Theorem readouts C hash chunks : Correct C hash (fun _ => True) -> Forall span_ok chunks ->
  exists x d, foldM (c_add C) chunks (c_new C) = Ok x /\ exists y, c_finalize C x = Ok y /\
    exec_op C ToArray y = Ok (y, Some (OBytes d)) /\
    exec_op C ToVector y = Ok (y, Some (OBytes d)) /\
    (d <> [] -> exec_op C ToString y = Ok (y, Some (OChars (hex_text d)))) /\
    (forall n, exec_op C (ToUint n) y = Ok (y, Some (ONum (leading_number n d)))) /\
    exec_op C StdHash y = exec_op C (ToUint 8) y.
Proof.
  intros (ab & dn & HI) Hc.
  pose proof (foldM_absorb HI chunks Hc [] (Forall_nil _)) as E. rewrite <- (im_new _ _ _ _ _ HI) in E.
  pose proof (bytes_ok_concat _ Hc) as Hb.
  exists (ab (concat chunks)), (hash (concat chunks)). split; [exact E|].
  exists (dn (concat chunks)). split; [now apply (im_fin _ _ _ _ _ HI)|].
  pose proof (im_read _ _ _ _ _ HI _ Hb I) as R. pose proof (im_bytes _ _ _ _ _ HI _ Hb I) as B.
  cbn [exec_op]. rewrite R. rewrite !bind_ok.
  split; [reflexivity|]. split; [reflexivity|]. split; [|split; [|reflexivity]].
  - intros Hne. rewrite to_string_ok by assumption. reflexivity.
  - intros n. rewrite bind_ok, to_uint_ok by assumption. reflexivity.
Qed.

(** ** one object's part of a program *)

Lemma exec_ops_app C a b x : exec_ops C (a ++ b) x = let! y := exec_ops C a x in exec_ops C b y.
Proof.
  revert x. induction a as [|o a IH]; intros x; [reflexivity|]. cbn [app exec_ops].
  destruct (exec_op C o x) as [[y w]| |]; [|reflexivity|reflexivity]. rewrite !bind_ok. apply IH.
Qed.

Lemma exec_snoc C p c st : exec C (p ++ [c]) st =
  let! r := exec C p st in let! t := exec C [c] (snd r) in Ok (fst r ++ fst t, snd t).
Proof.
  revert st. induction p as [|d p IH]; intros st; cbn [app].
  - cbn [exec bind fst snd app]. destruct c as [i o|i j].
    + destruct (exec_op C o (st i)) as [[y w]| |]; [|reflexivity|reflexivity]. rewrite !bind_ok. reflexivity.
    + reflexivity.
  - destruct d as [i o|i j].
    + change (exec C (On i o :: p ++ [c]) st) with
        (let! r := exec_op C o (st i) in let! t := exec C (p ++ [c]) (put C st i (fst r)) in
         Ok (match snd r with Some w => w :: fst t | None => fst t end, snd t)).
      change (exec C (On i o :: p) st) with
        (let! r := exec_op C o (st i) in let! t := exec C p (put C st i (fst r)) in
         Ok (match snd r with Some w => w :: fst t | None => fst t end, snd t)).
      destruct (exec_op C o (st i)) as [[y w]| |]; [|reflexivity|reflexivity]. rewrite !bind_ok. rewrite IH. cbn [fst snd].
      destruct (exec C p (put C st i y)) as [[os st1]| |]; [|reflexivity|reflexivity]. rewrite !bind_ok. cbn [fst snd].
      destruct (exec C [c] st1) as [[os2 st2]| |]; [|reflexivity|reflexivity]. rewrite !bind_ok. cbn [fst snd].
      destruct w; reflexivity.
    + exact (IH (put C st i (st j))).
Qed.

Theorem own_history C : forall p st os st' i, exec C p st = Ok (os, st') ->
  exists j, exec_ops C (own_calls p i) (st j) = Ok (st' i).
Proof.
  intros p. induction p as [|c p IH] using rev_ind; intros st os st' i E.
  - injection E as <- <-. exists i. reflexivity.
  - rewrite exec_snoc in E. destruct (exec C p st) as [[os1 st1]| |] eqn:E1; [|discriminate E|discriminate E].
    rewrite bind_ok in E. cbn [fst snd] in E. unfold own_calls. rewrite rev_app_distr. cbn [rev app own_back].
    destruct c as [k o|k j].
    + cbn [exec] in E. destruct (exec_op C o (st1 k)) as [[y w]| |] eqn:Eo; [|discriminate E|discriminate E].
      rewrite !bind_ok in E. cbn [fst snd] in E. injection E as _ <-.
      unfold put. rewrite (Nat.eqb_sym i k). destruct (Nat.eqb_spec k i) as [->|N].
      * destruct (IH st _ _ i E1) as (j & Ej). exists j. cbn [rev]. rewrite exec_ops_app. fold (own_calls p i). rewrite Ej, bind_ok.
        cbn [exec_ops]. rewrite Eo. reflexivity.
      * apply (IH st _ _ i E1).
    + cbn [exec bind fst snd] in E. injection E as _ <-. unfold put. rewrite (Nat.eqb_sym i k). destruct (Nat.eqb_spec k i) as [->|N].
      * apply (IH st _ _ j E1).
      * apply (IH st _ _ i E1).
Qed.

(** what an object holds after a promised program *)
Lemma arun_fed hash dom p : forall s os s', arun hash dom p s os s' -> (forall i, s i = afresh) ->
  forall i, a_msg (s' i) = fed (own_calls p i).
Proof.
  assert (forall p c s os s', arun hash dom (p ++ [c]) s os s' ->
    exists os1 s1 os2, arun hash dom p s os1 s1 /\ arun hash dom [c] s1 os2 s') as SN.
  { clear p. induction p as [|d p IH]; intros c s os s' H; cbn [app] in H.
    - exists [], s, os. split; [constructor|exact H].
    - inversion H as [|i o rest s0 a' w os0 s0' Hs Hr|i j rest s0 os0 s0' Hr]; subst;
        destruct (IH _ _ _ _ Hr) as (o1 & s1 & o2 & A & B).
      + do 3 eexists. split; [eapply ar_on; eassumption|exact B].
      + do 3 eexists. split; [eapply ar_copy; eassumption|exact B]. }
  induction p as [|c p IH] using rev_ind; intros s os s' H Hs i.
  - inversion H; subst. rewrite Hs. reflexivity.
  - destruct (SN _ _ _ _ _ H) as (os1 & s1 & os2 & A & B). pose proof (IH _ _ _ A Hs) as E.
    unfold fed, own_calls. rewrite rev_app_distr, rev_involutive. cbn [rev app own_back].
    assert (forall k, bytes_back (own_back (rev p) k) = a_msg (s1 k)) as F.
    { intros k. rewrite E. unfold fed, own_calls. now rewrite rev_involutive. }
    inversion B; subst; match goal with H : arun _ _ [] _ _ _ |- _ => inversion H; subst; clear H end; unfold aput; rewrite (Nat.eqb_sym i i0).
    + destruct (Nat.eqb_spec i0 i) as [->|N]; [|symmetry; apply F].
      match goal with H : astep _ _ _ _ _ _ |- _ => inversion H; subst end; cbn [bytes_back a_msg]; try rewrite F;
        match goal with E : _ = s1 i |- _ => rewrite <- E; reflexivity | |- _ => reflexivity end.
    + destruct (Nat.eqb_spec i0 i) as [->|N]; symmetry; apply F.
Qed.

(** the digest of an object in a program is that of a lone object fed the bytes of its own history *)
Theorem own_digest C hash (ne : Prop) p i : Correct C hash (fun _ => True) -> (ne -> forall m, hash m <> []) ->
  legal_program ne (p ++ [On i Finalize]) ->
  exists os st d, exec C (p ++ [On i Finalize]) (fun _ => c_new C) = Ok (os, st) /\ c_array C (st i) = Ok d /\
    forall chunks, Forall span_ok chunks -> concat chunks = fed (own_calls p i) -> hash_chunks C chunks = Ok d.
Proof.
  intros (ab & dn & HI) Hne Hp. destruct (legal_promise hash ne _ Hne Hp) as (os & s' & H).
  destruct (run_rel HI _ _ _ _ H (fun _ => c_new C)) as (st & E & R); [intros k; apply (rel_fresh HI)|].
  exists os, st, (hash (fed (own_calls p i))). split; [exact E|].
  assert (a_done (s' i) = true) as Hd.
  { destruct Hp as (b & Hp). clear -H. remember (fun _ : nat => afresh) as s. clear Heqs. revert s os H.
    induction p as [|c p IH]; intros s os H; cbn [app] in H.
    - inversion H; subst. match goal with H : arun _ _ [] _ _ _ |- _ => inversion H; subst; clear H end.
      unfold aput. rewrite Nat.eqb_refl. match goal with H : astep _ _ _ _ _ _ |- _ => inversion H; reflexivity end.
    - inversion H; subst; eapply IH; eassumption. }
  assert (a_msg (s' i) = fed (own_calls p i)) as Hm.
  { rewrite (arun_fed _ _ _ _ _ _ H) by reflexivity. unfold fed, own_calls. rewrite rev_app_distr, !rev_involutive.
    cbn [rev app own_back]. rewrite Nat.eqb_refl. reflexivity. }
  destruct (R i) as [Hb Hr]. rewrite Hd, Hm in *. destruct Hr as [_ ->]. split.
  - now apply (im_read _ _ _ _ _ HI).
  - intros chunks Hc <-. now apply (chunks_ok HI).
Qed.
