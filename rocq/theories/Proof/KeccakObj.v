(** Programs over SHA-3 and SHAKE objects of any output lengths. *)
From Coq Require Import List NArith ZArith Arith Bool Lia.
From Verif.Base Require Import Res.
From Verif.Spec Require Import Words Client ObjClient KeccakTypes.
From Verif.Model Require Import Buffer Stream Api ObjApi KeccakObj.
From Verif.Spec Require Keccak.
From Verif.Model Require Keccak.
From Verif.Proof Require Import Api ObjApi.
From Verif.Proof Require Keccak KeccakOut.
Import ListNotations.
Module S := Verif.Spec.Keccak.
Module M := Verif.Model.Keccak.

Lemma rate_ok t : 0 < rate t <= 1600. Proof. destruct t; cbn [rate]; lia. Qed.

Lemma uniform t dbg : exists absorb done : nat -> list N -> Buffer * M.St,
  forall d, Implements (M.cls (fst (template t)) (snd (template t)) dbg d) (output t d) (fun _ => True) (absorb d) (done d).
Proof.
  destruct t; unfold template; cbn [fst snd].
  - apply (Keccak.instance_uniform 18 0x06 dbg [false; true] _ (rate Sha3_224)); try reflexivity; cbn; lia.
  - apply (Keccak.instance_uniform 17 0x06 dbg [false; true] _ (rate Sha3_256)); try reflexivity; cbn; lia.
  - apply (Keccak.instance_uniform 13 0x06 dbg [false; true] _ (rate Sha3_384)); try reflexivity; cbn; lia.
  - apply (Keccak.instance_uniform 9 0x06 dbg [false; true] _ (rate Sha3_512)); try reflexivity; cbn; lia.
  - apply (Keccak.instance_uniform 21 0x1F dbg [true; true; true; true] _ (rate Shake_128)); try reflexivity; cbn; lia.
  - apply (Keccak.instance_uniform 17 0x1F dbg [true; true; true; true] _ (rate Shake_256)); try reflexivity; cbn; lia.
Qed.

Definition krel (absorb done : nat -> list N -> Buffer * M.St) (d : Z) (l : list (list N)) (b : bool) (x : Buffer * M.St) : Prop :=
  length_ok d /\ bytes_ok (concat l) /\ x = if b then done (Z.to_nat d) (concat l) else absorb (Z.to_nat d) (concat l).

Section One.
  Variables (t : keccak_type) (dbg : bool) (absorb done : nat -> list N -> Buffer * M.St).
  Hypothesis HI : forall d, Implements (M.cls (fst (template t)) (snd (template t)) dbg d) (output t d) (fun _ => True) (absorb d) (done d).

  Lemma reset_rel d l b x : krel absorb done d l b x -> krel absorb done d [] false (M.reset x).
  Proof.
    intros (Hd & Hl & ->). split; [exact Hd|]. split; [constructor|]. cbn [concat].
    destruct (HI (Z.to_nat d)) as [I1 I2 I3 I4 I5 I6 I7]. cbn [M.cls Obj c_new c_add c_finalize c_reset c_array] in *.
    rewrite <- I1. destruct b; auto.
  Qed.

  Lemma realizes : Realizes (objects t dbg) (promised t) length_ok span_ok any_reset onto_object (krel absorb done).
  Proof.
    unfold objects, keccak_objects.
    constructor; cbn [Args OObj oc_construct oc_feed oc_finalize oc_reset oc_vector oc_copy oc_move oc_assign oc_massign fst].
    - intros d Hd. unfold length_ok in Hd. unfold M.construct. destruct (Z.ltb_spec d 0); [lia|]. eexists. split; [reflexivity|].
      split; [exact Hd|]. split; [constructor|]. apply (im_new _ _ _ _ _ (HI (Z.to_nat d))).
    - intros d l x m (Hd & Hl & ->) Hm. exists (absorb (Z.to_nat d) (concat l ++ m)).
      split; [apply (im_add _ _ _ _ _ (HI (Z.to_nat d))); assumption|].
      split; [exact Hd|]. rewrite concat_app. cbn [concat]. rewrite app_nil_r. split; [|reflexivity].
      apply Forall_app. split; [exact Hl|apply Hm].
    - intros d l x (Hd & Hl & ->). exists (done (Z.to_nat d) (concat l)).
      split; [apply (im_fin _ _ _ _ _ (HI (Z.to_nat d)) _ Hl I)|]. split; auto.
    - intros d l b x Hx _. exists (M.reset x). split; [reflexivity|]. eapply reset_rel, Hx.
    - intros d l x (Hd & Hl & ->). split; [apply (im_read _ _ _ _ _ (HI (Z.to_nat d)) _ Hl I)|].
      apply (im_bytes _ _ _ _ _ (HI (Z.to_nat d)) _ Hl I).
    - intros d l b x Hx. exists x. auto.
    - intros d l b x Hx. exact Hx.
    - intros sl x d l b y Hy _ _. exists y. auto.
    - intros x d l b y Hy. exact Hy.
    - intros d H. now apply H.
  Qed.
End One.

Theorem objects_correct t dbg : ObjCorrect (objects t dbg) (promised t) length_ok span_ok any_reset onto_object.
Proof. destruct (uniform t dbg) as (absorb & done & HI). eexists. exact (realizes t dbg absorb done HI). Qed.

Theorem history t dbg p os s' : orun (promised t) length_ok span_ok any_reset onto_object p (fun _ => NoObject) os s' ->
  exists st', oexec (objects t dbg) p (fun _ => None) = Ok (os, st').
Proof. exact (objcorrect_history _ _ _ _ _ _ (objects_correct t dbg) p os s'). Qed.

Lemma oexec_app C p q st : oexec C (p ++ q) st =
  let! r := oexec C p st in let! u := oexec C q (snd r) in Ok (fst r ++ fst u, snd u).
Proof.
  revert st. induction p as [|c p IH]; intros st; cbn [app oexec].
  - rewrite bind_ok. cbn [fst snd app]. destruct (oexec C q st) as [[os st']|e|u]; reflexivity.
  - destruct (exec_ocmd C c st) as [[st1 w]|e|u]; [|reflexivity|reflexivity]. rewrite !bind_ok. cbn [fst snd]. rewrite IH.
    destruct (oexec C p st1) as [[os st2]|e|u]; [|reflexivity|reflexivity]. rewrite !bind_ok. cbn [fst snd].
    destruct (oexec C q st2) as [[os' st3]|e|u]; [|reflexivity|reflexivity]. rewrite !bind_ok. cbn [fst snd].
    destruct w; reflexivity.
Qed.

(** an object that was moved from may be reset; it is then like a new one of the same length *)
Theorem moved_reset t dbg p os s1 i j d items b q os' s' :
  orun (promised t) length_ok span_ok any_reset onto_object p (fun _ => NoObject) os s1 ->
  s1 j = Live (mkO d items b) -> i <> j ->
  orun (promised t) length_ok span_ok any_reset onto_object q
    (oput (oput s1 i (Live (mkO d items b))) j (Live (mkO d [] false))) os' s' ->
  (exists st, oexec (objects t dbg) (p ++ MoveConstruct i j :: Rst j :: q) (fun _ => None) = Ok (os ++ os', st)) /\
  (s1 i <> NoObject -> exists st, oexec (objects t dbg) (p ++ MoveAssign i j :: Rst j :: q) (fun _ => None) = Ok (os ++ os', st)).
Proof.
  intros Hp Ej N Hq. destruct (uniform t dbg) as (absorb & done & HI). pose proof (realizes t dbg absorb done HI) as HR.
  destruct (orun_rel HR _ _ _ _ Hp (fun _ => None)) as (st & Ep & R); [intros k; exact I|].
  destruct (live_get _ _ _ _ R Ej) as (x & Ex & Rx). cbn [o_args o_items o_done] in Rx.
  assert (forall st' : ostore (objects t dbg), (forall k, k <> i -> k <> j -> st' k = st k) -> st' i = Some x -> st' j = Some (M.reset x) ->
    exists st2, oexec (objects t dbg) q st' = Ok (os', st2)) as Hrest.
  { intros st' Hk Hi Hj. apply (orun_ok HR _ _ _ _ Hq st'). intros k. unfold oput.
    destruct (Nat.eqb_spec k j) as [->|Nj]; [|destruct (Nat.eqb_spec k i) as [->|Ni]].
    - exists (M.reset x). split; [exact Hj|]. cbn [o_args o_items o_done]. eapply (reset_rel t dbg), Rx. exact HI.
    - exists x. split; [exact Hi|exact Rx].
    - rewrite Hk by assumption. apply R. }
  assert (forall c, exec_ocmd (objects t dbg) c st =
      Ok (sput (objects t dbg) (sput (objects t dbg) st j (moved_from x)) i x, None) ->
    exists st', oexec (objects t dbg) (p ++ c :: Rst j :: q) (fun _ => None) = Ok (os ++ os', st')) as Hc.
  { intros c Ec.
    destruct (Hrest (sput (objects t dbg) (sput (objects t dbg) (sput (objects t dbg) st j (moved_from x)) i x) j (M.reset x))) as (st2 & E2).
    { intros k Ni Nj. unfold sput. destruct (Nat.eqb_spec k j); [easy|]. destruct (Nat.eqb_spec k i); easy. }
    { unfold sput. rewrite Nat.eqb_refl. destruct (Nat.eqb_spec i j); easy. }
    { unfold sput. now rewrite Nat.eqb_refl. }
    exists st2. rewrite oexec_app, Ep, bind_ok. cbn [fst snd oexec]. rewrite Ec, bind_ok. cbn [fst snd exec_ocmd].
    unfold update, sget. unfold sput at 1. destruct (Nat.eqb_spec j i) as [->|_]; [easy|]. unfold sput at 1. rewrite Nat.eqb_refl, bind_ok.
    change (oc_reset (objects t dbg) (moved_from x)) with (@Ok (Buffer * M.St) (M.reset x)). rewrite !bind_ok. cbn [fst snd].
    rewrite E2, !bind_ok. reflexivity. }
  split.
  - apply Hc. cbn [exec_ocmd]. rewrite Ex, bind_ok. reflexivity.
  - intros Hi. apply Hc. cbn [exec_ocmd].
    assert (exists y, sget (objects t dbg) st i = Ok y) as (y & Ey).
    { pose proof (R i) as Ri. unfold sget. destruct (s1 i) as [| |o]; [easy| |]; destruct Ri as (y & Ri); [|destruct Ri as [Ri _]]; rewrite Ri; eauto. }
    rewrite Ey, bind_ok, Ex, bind_ok. destruct (Nat.eqb_spec i j); [easy|]. reflexivity.
Qed.

(** ** lengths *)

Lemma output_length t d m : length (output t d m) = d.
Proof. apply KeccakOut.shake_length, rate_ok. Qed.

Lemma orun_lengths t d p s os s' : orun (promised t) length_ok span_ok any_reset onto_object p s os s' ->
  (forall i a, In (Construct i a) p -> a = d) -> (forall k o, s k = Live o -> o_args o = d) ->
  forall w, In (OBytes w) os -> length w = Z.to_nat d.
Proof.
  induction 1 as [s|c rest s s1 w os s' Hs Hr IH]; intros Hc Hl u Hu; [destruct Hu|].
  assert (forall k o, s1 k = Live o -> o_args o = d) as Hl1.
  { clear IH Hr Hu.
    assert (forall i x, (forall o, x = Live o -> o_args o = d) ->
      forall s0, (forall k o, s0 k = Live o -> o_args o = d) -> forall k o, oput s0 i x k = Live o -> o_args o = d) as P.
    { intros i x Hx s0 H0 k o. unfold oput. destruct (k =? i); [apply Hx|apply H0]. }
    destruct Hs as [i a s Ha|i m a l s E Hd|i a l s E|i a l b s E Hr|i a l s E|i a l s E Hn|i n a l s E|i a l s E|i j o s E|i j o s N E|i j o s E Ha|i j o s N E Hi];
      try exact Hl; try (pose proof (Hl _ _ E) as G; cbn [o_args] in G).
    - apply P; [|exact Hl]. intros o [= <-]. cbn [o_args]. apply (Hc i). now left.
    - apply P; [|exact Hl]. intros o [= <-]. exact G.
    - apply P; [|exact Hl]. intros o [= <-]. exact G.
    - apply P; [|exact Hl]. intros o [= <-]. exact G.
    - apply P; [|exact Hl]. intros o' [= <-]. exact G.
    - apply P; [|apply P; [discriminate|exact Hl]]. intros o' [= <-]. exact G.
    - apply P; [|exact Hl]. intros o' [= <-]. exact G.
    - apply P; [|apply P; [discriminate|exact Hl]]. intros o' [= <-]. exact G. }
  assert (forall v, In (OBytes v) os -> length v = Z.to_nat d) as Hrest.
  { apply IH; [|exact Hl1]. intros i a Hi. apply (Hc i). now right. }
  destruct Hs as [i a s Ha|i m a l s E Hd|i a l s E|i a l b s E Hr'|i a l s E|i a l s E Hn|i n a l s E|i a l s E|i j o s E|i j o s N E|i j o s E Ha|i j o s N E Hi];
    try (apply Hrest; exact Hu); destruct Hu as [Hu|Hu]; try (apply Hrest; exact Hu); try discriminate.
  injection Hu as <-. unfold promised. rewrite output_length. f_equal. exact (Hl _ _ E).
Qed.

(** variables of the alias types that only meet their own type *)
Theorem sized t dbg d p os s' : alias_length t = Some d -> (forall i a, In (Construct i a) p -> a = d) ->
  orun (promised t) length_ok span_ok any_reset onto_object p (fun _ => NoObject) os s' ->
  named_length t = Some d /\ exists st', oexec (objects t dbg) p (fun _ => None) = Ok (os, st') /\
    forall w, In (OBytes w) os -> length w = Z.to_nat d.
Proof.
  intros Ha Hc H. split; [rewrite <- Ha; destruct t; reflexivity|]. destruct (history t dbg p os s' H) as (st' & E).
  exists st'. split; [exact E|]. apply (orun_lengths t d p _ os s' H Hc). discriminate.
Qed.

(** the promised digest of such an object is that of FIPS 202 *)
Lemma promised_fips items :
  promised Sha3_224 28 items = S.sha3_224 (concat items) /\ promised Sha3_256 32 items = S.sha3_256 (concat items) /\
  promised Sha3_384 48 items = S.sha3_384 (concat items) /\ promised Sha3_512 64 items = S.sha3_512 (concat items) /\
  forall d, promised Shake_128 d items = S.shake128 (Z.to_nat d) (concat items) /\
    promised Shake_256 d items = S.shake256 (Z.to_nat d) (concat items).
Proof.
  unfold promised, output, S.sha3_224, S.sha3_256, S.sha3_384, S.sha3_512, S.sha3, S.shake128, S.shake256, S.keccak.
  cbn [suffix]. unfold rate.
  change (Z.to_nat 28) with 28. change (Z.to_nat 32) with 32. change (Z.to_nat 48) with 48. change (Z.to_nat 64) with 64.
  change (8 * 28) with 224. change (8 * 32) with 256. change (8 * 48) with 384. change (8 * 64) with 512.
  change (2 * 224) with 448. change (2 * 256) with 512. change (2 * 384) with 768. change (2 * 512) with 1024.
  do 4 (split; [reflexivity|]). intros d. split; reflexivity.
Qed.

(** ** a variable of type SHA3_256 that is assigned a base object of another length *)
Definition resized (m : list N) : list (ocmd Z) :=
  [Construct 0 32%Z; Construct 1 16%Z; CopyAssign 0 1; Feed 0 m; Fin 0].

Lemma resized_runs m : span_ok m -> exists s',
  orun (promised Sha3_256) length_ok span_ok any_reset onto_object (resized m ++ [Vec 0]) (fun _ => NoObject)
    [OBytes (promised Sha3_256 16 [m])] s'.
Proof.
  intros Hm. eexists. unfold resized. cbn [app].
  eapply (or_cons _ _ _ _ _ _ _ _ _ None); [apply os_construct; unfold length_ok; lia|].
  eapply (or_cons _ _ _ _ _ _ _ _ _ None); [apply os_construct; unfold length_ok; lia|].
  eapply (or_cons _ _ _ _ _ _ _ _ _ None); [eapply os_assign; [reflexivity|discriminate]|].
  eapply (or_cons _ _ _ _ _ _ _ _ _ None); [eapply os_feed; [reflexivity|exact Hm]|].
  eapply (or_cons _ _ _ _ _ _ _ _ _ None); [eapply os_fin; reflexivity|].
  eapply (or_cons _ _ _ _ _ _ _ _ _ (Some _)); [eapply os_vec; reflexivity|].
  apply or_nil.
Qed.

Theorem length_refuted : exists t d p os s', alias_length t = Some d /\ (forall a, In (Construct 0 a) p -> a = d) /\
  orun (promised t) length_ok span_ok any_reset onto_object (p ++ [Vec 0]) (fun _ => NoObject) os s' /\
  forall dbg, exists st' w, oexec (objects t dbg) (p ++ [Vec 0]) (fun _ => None) = Ok (os, st') /\
    os = [OBytes w] /\ length w <> Z.to_nat d.
Proof.
  assert (span_ok [97%N; 98%N; 99%N]) as Hm by (split; [repeat constructor|cbn; lia]).
  destruct (resized_runs _ Hm) as (s' & H).
  exists Sha3_256, 32%Z, (resized [97%N; 98%N; 99%N]). eexists. exists s'. split; [reflexivity|]. split; [|split; [exact H|]].
  - intros a. unfold resized. intros [E|[E|[E|[E|[E|[]]]]]]; congruence.
  - intros dbg. destruct (history Sha3_256 dbg _ _ _ H) as (st' & E). exists st'. eexists. split; [exact E|]. split; [reflexivity|].
    unfold promised. rewrite output_length. discriminate.
Qed.
