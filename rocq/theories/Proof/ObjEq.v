(** Comparison of cSHAKE and TupleHash objects. *)
From Coq Require Import List NArith ZArith Arith Bool Lia.
From Verif.Base Require Import Res CWord Double.
From Verif.Spec Require Import Words Merkle Client ObjClient Log2 Sp800185 CShakeArgs.
From Verif.Model Require Import Buffer Stream Api Library ObjApi ObjEquality.
From Verif.Spec Require Keccak.
From Verif.Model Require Keccak CShake TupleHash.
From Verif.Proof Require Import Words Streaming Blocks Api ObjApi Encode Equality SpongeEq SpongeNeq.
From Verif.Proof Require Crc32 Keccak CShake TupleHash.
Import ListNotations.
Local Open Scope N_scope.
Module K := Verif.Model.Keccak.
Module PC := Verif.Proof.CShake.
Module PT := Verif.Proof.TupleHash.

(** a comparison that is total on live objects and true only of finalized objects with the same digest *)
Section Programs.
  Context {C : ObjClass} {hash : Args C -> list (list N) -> list N} {ok_args : Args C -> Prop}.
  Context {ok_item : list N -> Prop} {may_reset : Args C -> Prop} {may_assign : slot (Args C) -> Args C -> Prop}.
  Context {rel : Args C -> list (list N) -> bool -> OObj C -> Prop}.
  Hypothesis HR : Realizes C hash ok_args ok_item may_reset may_assign rel.
  Variable eqf : OObj C -> OObj C -> res bool.
  Variable alike : Args C -> Args C -> Prop.
  Hypothesis Htotal : forall a l b x a' l' b' y, rel a l b x -> rel a' l' b' y -> exists r, eqf x y = Ok r.
  Hypothesis Hsame : forall a l x a' l' y, alike a a' -> rel a l true x -> rel a' l' true y -> eqf x y = Ok true -> hash a l = hash a' l'.

  Theorem eq_total p os s' i j o o' : orun hash ok_args ok_item may_reset may_assign p (fun _ => NoObject) os s' ->
    s' i = Live o -> s' j = Live o' ->
    exists st x y b, oexec C p (fun _ => None) = Ok (os, st) /\ st i = Some x /\ st j = Some y /\ eqf x y = Ok b.
  Proof.
    intros H Hi Hj. destruct (orun_rel HR _ _ _ _ H (fun _ => None)) as (st & E & R); [intros k; exact I|].
    pose proof (R i) as Ri. pose proof (R j) as Rj. rewrite Hi in Ri. rewrite Hj in Rj.
    destruct Ri as (x & Ex & Rx). destruct Rj as (y & Ey & Ry). destruct (Htotal _ _ _ _ _ _ _ _ Rx Ry) as (b & Eb).
    exists st, x, y, b. auto.
  Qed.

  Theorem eq_digest p os s' i j a items a' items' : orun hash ok_args ok_item may_reset may_assign p (fun _ => NoObject) os s' ->
    s' i = Live (mkO a items true) -> s' j = Live (mkO a' items' true) -> alike a a' ->
    exists st x y b d e, oexec C p (fun _ => None) = Ok (os, st) /\ st i = Some x /\ st j = Some y /\
      eqf x y = Ok b /\ oc_vector C x = Ok d /\ oc_vector C y = Ok e /\ (b = true -> d = e).
  Proof.
    intros H Hi Hj Ha. destruct (orun_rel HR _ _ _ _ H (fun _ => None)) as (st & E & R); [intros k; exact I|].
    pose proof (R i) as Ri. pose proof (R j) as Rj. rewrite Hi in Ri. rewrite Hj in Rj.
    destruct Ri as (x & Ex & Rx). destruct Rj as (y & Ey & Ry). destruct (Htotal _ _ _ _ _ _ _ _ Rx Ry) as (b & Eb).
    cbn [o_args o_items o_done] in *.
    exists st, x, y, b, (hash a items), (hash a' items'). do 4 (split; [assumption|]).
    split; [apply (re_vec _ _ _ _ _ _ _ HR _ _ _ Rx)|]. split; [apply (re_vec _ _ _ _ _ _ _ HR _ _ _ Ry)|].
    intros ->. exact (Hsame _ _ _ _ _ _ Ha Rx Ry Eb).
  Qed.
End Programs.

Lemma digest_std {C : ObjClass} {eqf : OObj C -> OObj C -> res bool} {p os i j} :
  (exists st x y b d e, oexec C p (fun _ => None) = Ok (os, st) /\ st i = Some x /\ st j = Some y /\
      eqf x y = Ok b /\ oc_vector C x = Ok d /\ oc_vector C y = Ok e /\ (b = true -> d = e)) ->
  exists st x y b, oexec C p (fun _ => None) = Ok (os, st) /\ st i = Some x /\ st j = Some y /\ eqf x y = Ok b /\
    (b = true -> exists v, exec_ocmd C (Std i) st = Ok (st, Some (ONum v)) /\ exec_ocmd C (Std j) st = Ok (st, Some (ONum v))).
Proof.
  intros (st & x & y & b & d & e & H & Hx & Hy & Hb & Hd & He & Hde). exists st, x, y, b. do 4 (split; [assumption|]).
  intros T. specialize (Hde T). subst e. destruct (std_hash_total d) as (v & Ev). exists v.
  cbn [exec_ocmd]. unfold observe, sget. rewrite Hx, Hy, !bind_ok, Hd, He, !bind_ok, Ev, !bind_ok. split; reflexivity.
Qed.

(** digest lengths *)
Definition clen (a : Z * list N * list N) : Z := let '(l, _, _) := a in l.
Definition tlen (a : Z * list N) : Z := let '(l, _) := a in l.

Section Objects.
  Variables (dbg : bool) (q : nat) (sufS sufK : N).
  Hypothesis Hq : (0 < q)%nat.
  Hypothesis Hq25 : (q <= 25)%nat.
  Notation R := (8 * q)%nat.
  Variables (hashS hashK : nat -> list N -> list N).
  Variables (absS doneS absK doneK : nat -> list N -> Buffer * K.St).
  Hypothesis IS : forall d, Implements (K.cls R sufS dbg d) (hashS d) (fun _ => True) (absS d) (doneS d).
  Hypothesis IK : forall d, Implements (K.cls R sufK dbg d) (hashK d) (fun _ => True) (absK d) (doneK d).
  Notation crel := (PC.crel R absS doneS absK doneK).
  Notation hash := (PC.hash R hashS hashK).

  Lemma heldS d b m : bytes_ok m -> held q dbg d b ((if b then doneS else absS) d m).
  Proof.
    intros Hm. destruct (implements_kept _ _ _ _ _ _ (IS d) (keccak_held q sufS dbg d Hq Hq25)) as [H1 H2].
    destruct b; [exact (H2 m Hm I)|exact (H1 m Hm)].
  Qed.
  Lemma heldK d b m : bytes_ok m -> held q dbg d b ((if b then doneK else absK) d m).
  Proof.
    intros Hm. destruct (implements_kept _ _ _ _ _ _ (IK d) (keccak_held q sufK dbg d Hq Hq25)) as [H1 H2].
    destruct b; [exact (H2 m Hm I)|exact (H1 m Hm)].
  Qed.
  Lemma held_cmp d b x d' b' y : held q dbg d b x -> held q dbg d' b' y ->
    exists r, keccak_eq x y = Ok r /\ (r = true <-> K.k_state (snd x) = K.k_state (snd y)).
  Proof. intros ((H & _) & _) ((H' & _) & _). exact (eq_array_spec 25 _ _ H H'). Qed.

  Lemma stream_ok n c m : short n -> short c -> bytes_ok m -> bytes_ok (cshake_stream R n c m).
  Proof. apply (PC.stream_bytes dbg R sufS sufK (N.of_nat R) ltac:(lia) ltac:(lia) eq_refl hashS hashK absS doneS absK doneK IS IK). Qed.

  Lemma crel_total a m b x a' m' b' y : crel a m b x -> crel a' m' b' y -> exists r, cshake_eq x y = Ok r.
  Proof.
    destruct a as [[l n] c], a' as [[l' n'] c']. intros (Ha & Hm & Hcu & Hp) (Ha' & Hm' & Hcu' & Hp').
    unfold cshake_eq. rewrite Hcu, Hcu'. unfold customized.
    destruct (is_nil n && is_nil c), (is_nil n' && is_nil c'); cbn [negb eqb]; eauto; rewrite Hp, Hp'; cbn [CShake.deref]; rewrite !bind_ok.
    - destruct (held_cmp _ _ _ _ _ _ (heldS (Z.to_nat l) b m Hm) (heldS (Z.to_nat l') b' m' Hm')) as (r & Er & _). eauto.
    - destruct Ha as (_ & Hn & Hc). destruct Ha' as (_ & Hn' & Hc').
      destruct (held_cmp _ _ _ _ _ _ (heldK (Z.to_nat l) b _ (stream_ok n c m Hn Hc Hm)) (heldK (Z.to_nat l') b' _ (stream_ok n' c' m' Hn' Hc' Hm'))) as (r & Er & _). eauto.
  Qed.

  Lemma crel_same a m x a' m' y : clen a = clen a' -> crel a m true x -> crel a' m' true y -> cshake_eq x y = Ok true -> hash a m = hash a' m'.
  Proof.
    destruct a as [[l n] c], a' as [[l' n'] c']. cbn [clen]. intros <- (Ha & Hm & Hcu & Hp) (Ha' & Hm' & Hcu' & Hp').
    unfold cshake_eq. rewrite Hcu, Hcu'. unfold customized, PC.hash.
    destruct (is_nil n && is_nil c), (is_nil n' && is_nil c'); cbn [negb eqb]; try discriminate; rewrite Hp, Hp'; cbn [CShake.deref]; rewrite !bind_ok; intros E.
    - pose proof (heldS (Z.to_nat l) true m Hm) as H1. pose proof (heldS (Z.to_nat l) true m' Hm') as H2. cbn [andb] in H1, H2.
      destruct (held_cmp _ _ _ _ _ _ H1 H2) as (r & Er & Hr). rewrite Er in E. apply Proof.Crc32.Ok_inj in E.
      pose proof (held_eq q dbg (Z.to_nat l) Hq Hq25 _ _ H1 H2 (proj1 Hr E)) as F.
      pose proof (im_read _ _ _ _ _ (IS (Z.to_nat l)) m Hm I) as R1. pose proof (im_read _ _ _ _ _ (IS (Z.to_nat l)) m' Hm' I) as R2.
      apply Proof.Crc32.Ok_inj. rewrite <- R1, <- R2. exact (f_equal Ok F).
    - destruct Ha as (_ & Hn & Hc). destruct Ha' as (_ & Hn' & Hc').
      pose proof (stream_ok n c m Hn Hc Hm) as S1. pose proof (stream_ok n' c' m' Hn' Hc' Hm') as S2.
      pose proof (heldK (Z.to_nat l) true _ S1) as H1. pose proof (heldK (Z.to_nat l) true _ S2) as H2.
      destruct (held_cmp _ _ _ _ _ _ H1 H2) as (r & Er & Hr). rewrite Er in E. apply Proof.Crc32.Ok_inj in E.
      pose proof (held_eq q dbg (Z.to_nat l) Hq Hq25 _ _ H1 H2 (proj1 Hr E)) as F.
      pose proof (im_read _ _ _ _ _ (IK (Z.to_nat l)) _ S1 I) as R1. pose proof (im_read _ _ _ _ _ (IK (Z.to_nat l)) _ S2 I) as R2.
      apply Proof.Crc32.Ok_inj. rewrite <- R1, <- R2. exact (f_equal Ok F).
  Qed.

  (** what happens for two lengths of at most one block *)
  Hypothesis HSS : forall d e m, bytes_ok m -> (d <= R)%nat -> (e <= R)%nat -> K.k_state (snd (doneS d m)) = K.k_state (snd (doneS e m)).
  Hypothesis HSK : forall d e m, bytes_ok m -> (d <= R)%nat -> (e <= R)%nat -> K.k_state (snd (doneK d m)) = K.k_state (snd (doneK e m)).
  Lemma crel_lengths l l' n c m x y : (Z.to_nat l <= R)%nat -> (Z.to_nat l' <= R)%nat -> crel (l, n, c) m true x -> crel (l', n, c) m true y -> cshake_eq x y = Ok true.
  Proof.
    intros L L' (Ha & Hm & Hcu & Hp) (_ & _ & Hcu' & Hp').
    unfold cshake_eq. rewrite Hcu, Hcu'. unfold customized.
    destruct (is_nil n && is_nil c); cbn [negb eqb]; rewrite Hp, Hp'; cbn [CShake.deref]; rewrite !bind_ok.
    - destruct (held_cmp _ _ _ _ _ _ (heldS (Z.to_nat l) true m Hm) (heldS (Z.to_nat l') true m Hm)) as (r & Er & Hr).
      cbn [andb] in Er. rewrite Er. f_equal. apply Hr. now apply HSS.
    - destruct Ha as (_ & Hn & Hc). pose proof (stream_ok n c m Hn Hc Hm) as S1.
      destruct (held_cmp _ _ _ _ _ _ (heldK (Z.to_nat l) true _ S1) (heldK (Z.to_nat l') true _ S1)) as (r & Er & Hr).
      rewrite Er. f_equal. apply Hr. now apply HSK.
  Qed.
End Objects.

(** the refinement of a sponge for all lengths at once, with its states *)
Lemma uniform_state q P dbg sfx Rb r (hash' : nat -> list N -> list N) :
  (0 < q)%nat -> (q <= 25)%nat -> (length sfx <= 5)%nat ->
  Keccak.byte_bits P = sfx ++ [true] ++ repeat false (7 - length sfx) -> P < 128 ->
  Rb = (8 * q)%nat -> r = (8 * (8 * q))%nat ->
  (forall d m, hash' d m = Spec.Keccak.bytes_of (Spec.Keccak.sponge r (8 * d) (Spec.Keccak.bits_of m ++ sfx))) ->
  exists absorb done : nat -> list N -> Buffer * K.St,
    (forall d, Implements (K.cls Rb P dbg d) (hash' d) (fun _ => True) (absorb d) (done d)) /\
    forall d e m, bytes_ok m -> (d <= 8 * q)%nat -> (e <= 8 * q)%nat -> K.k_state (snd (done d m)) = K.k_state (snd (done e m)).
Proof.
  intros H1 H2 H3 H4 H5 -> -> Hh. exists (fun d => absorb (8 * q) (8 * q) (Keccak.run q) (Keccak.s0 d)), (Keccak.done q P dbg). split.
  - intros d. destruct (Keccak.core_implements q P dbg H1 H2 sfx H3 H4 H5 d) as [I1 I2 I3 I4 I5 I6 I7]. constructor; try assumption.
    + intros m Hm Hd. rewrite Hh. now apply I4.
    + intros m Hm Hd. rewrite Hh. now apply I7.
  - intros d e m Hm Hd He. rewrite !(Keccak.done_state q P dbg H1 H2 sfx H3 H4 H5) by assumption. reflexivity.
Qed.

Lemma stateS128 dbg : exists absorb done : nat -> list N -> Buffer * K.St,
  (forall d, Implements (K.cls 168 0x1F dbg d) (Spec.Keccak.shake128 d) (fun _ => True) (absorb d) (done d)) /\
  forall d e m, bytes_ok m -> (d <= 8 * 21)%nat -> (e <= 8 * 21)%nat -> K.k_state (snd (done d m)) = K.k_state (snd (done e m)).
Proof. apply (uniform_state 21 0x1F dbg Keccak.sfx_shake _ 1344); try reflexivity; cbn; lia. Qed.
Lemma stateS256 dbg : exists absorb done : nat -> list N -> Buffer * K.St,
  (forall d, Implements (K.cls 136 0x1F dbg d) (Spec.Keccak.shake256 d) (fun _ => True) (absorb d) (done d)) /\
  forall d e m, bytes_ok m -> (d <= 8 * 17)%nat -> (e <= 8 * 17)%nat -> K.k_state (snd (done d m)) = K.k_state (snd (done e m)).
Proof. apply (uniform_state 17 0x1F dbg Keccak.sfx_shake _ 1088); try reflexivity; cbn; lia. Qed.
Lemma stateK128 dbg : exists absorb done : nat -> list N -> Buffer * K.St,
  (forall d, Implements (K.cls 168 0x04 dbg d) (PC.hashK128 d) (fun _ => True) (absorb d) (done d)) /\
  forall d e m, bytes_ok m -> (d <= 8 * 21)%nat -> (e <= 8 * 21)%nat -> K.k_state (snd (done d m)) = K.k_state (snd (done e m)).
Proof. apply (uniform_state 21 0x04 dbg PC.sfx_cshake _ 1344); try reflexivity; cbn; lia. Qed.
Lemma stateK256 dbg : exists absorb done : nat -> list N -> Buffer * K.St,
  (forall d, Implements (K.cls 136 0x04 dbg d) (PC.hashK256 d) (fun _ => True) (absorb d) (done d)) /\
  forall d e m, bytes_ok m -> (d <= 8 * 17)%nat -> (e <= 8 * 17)%nat -> K.k_state (snd (done d m)) = K.k_state (snd (done e m)).
Proof. apply (uniform_state 17 0x04 dbg PC.sfx_cshake _ 1088); try reflexivity; cbn; lia. Qed.

Section Sized128.
  Variables (lg : N -> N) (dbg : bool).
  Hypothesis Hlog : log2_accurate lg.

  Lemma cshake128_realizes : exists aS dS aK dK,
    (Realizes (Model.CShake.cls128 lg dbg) (fun a l => cshake128 a (concat l)) ok_cargs span_ok may_reset may_assign
      (fun a l b o => PC.crel (8 * 21) aS dS aK dK a (concat l) b o)) /\
    (Realizes (Model.TupleHash.cls128 lg dbg) tuplehash128 ok_targs short no_reset live_assign (PT.trel (8 * 21) aS dS aK dK)) /\
    (forall d, Implements (K.cls (8 * 21) 0x1F dbg d) (Spec.Keccak.shake128 d) (fun _ => True) (aS d) (dS d)) /\
    (forall d, Implements (K.cls (8 * 21) 0x04 dbg d) (PC.hashK128 d) (fun _ => True) (aK d) (dK d)) /\
    (forall d e m, bytes_ok m -> (d <= 8 * 21)%nat -> (e <= 8 * 21)%nat -> K.k_state (snd (dS d m)) = K.k_state (snd (dS e m))) /\
    (forall d e m, bytes_ok m -> (d <= 8 * 21)%nat -> (e <= 8 * 21)%nat -> K.k_state (snd (dK d m)) = K.k_state (snd (dK e m))).
  Proof.
    destruct (stateS128 dbg) as (aS & dS & IS & HS). destruct (stateK128 dbg) as (aK & dK & IK & HK). exists aS, dS, aK, dK.
    split; [|split; [|split; [exact IS|split; [exact IK|split; [exact HS|exact HK]]]]].
    - apply (PC.realizes_ext (Model.CShake.cls128 lg dbg) (fun (a : Z * list N * list N) l => PC.hash 168 Spec.Keccak.shake128 PC.hashK128 a (concat l)));
        [intros a l; apply (PC.hash128 168 eq_refl)|].
      apply (PC.realizes lg dbg Hlog 168 0x1F 0x04 168); try assumption; try reflexivity; lia.
    - apply (PC.realizes_ext (Model.TupleHash.cls128 lg dbg) (PT.hash 168 Spec.Keccak.shake128 PC.hashK128));
        [intros a l; apply (PT.hash128 168 eq_refl)|].
      apply (PT.realizes lg dbg Hlog 168 0x1F 0x04 168); try assumption; try reflexivity; lia.
  Qed.

  Theorem cshake128_eq_total p os s' i j o o' :
    orun (fun a l => cshake128 a (concat l)) ok_cargs span_ok may_reset may_assign p (fun _ => NoObject) os s' -> s' i = Live o -> s' j = Live o' ->
    exists st x y b, oexec (Model.CShake.cls128 lg dbg) p (fun _ => None) = Ok (os, st) /\ st i = Some x /\ st j = Some y /\
      cshake_eq x y = Ok b /\ cshake_neq x y = Ok (negb b).
  Proof.
    intros H Hi Hj. destruct cshake128_realizes as (aS & dS & aK & dK & HR & _ & IS & IK & _).
    destruct (eq_total HR cshake_eq) with (3 := Hi) (4 := Hj) (2 := H) as (st & x & y & b & E & E1 & E2 & E3).
    - intros a l b x a' l' b' y. apply (crel_total dbg 21 0x1F 0x04 ltac:(lia) ltac:(lia) _ _ aS dS aK dK IS IK).
    - exists st, x, y, b. unfold cshake_neq. rewrite E3, bind_ok. auto.
  Qed.

  Theorem cshake128_eq_digest p os s' i j l n c items n' c' items' :
    orun (fun a l => cshake128 a (concat l)) ok_cargs span_ok may_reset may_assign p (fun _ => NoObject) os s' ->
    s' i = Live (mkO (l, n, c) items true) -> s' j = Live (mkO (l, n', c') items' true) ->
    exists st x y b d e, oexec (Model.CShake.cls128 lg dbg) p (fun _ => None) = Ok (os, st) /\ st i = Some x /\ st j = Some y /\
      cshake_eq x y = Ok b /\ oc_vector (Model.CShake.cls128 lg dbg) x = Ok d /\ oc_vector (Model.CShake.cls128 lg dbg) y = Ok e /\ (b = true -> d = e).
  Proof.
    intros H Hi Hj. destruct cshake128_realizes as (aS & dS & aK & dK & HR & _ & IS & IK & _).
    apply (eq_digest HR cshake_eq (fun a a' => clen a = clen a')) with (3 := H) (4 := Hi) (5 := Hj); [| |reflexivity].
    - intros a l0 b x a' l' b' y. apply (crel_total dbg 21 0x1F 0x04 ltac:(lia) ltac:(lia) _ _ aS dS aK dK IS IK).
    - intros a l0 x a' l' y Hl Hx Hy E. 
      pose proof (crel_same dbg 21 0x1F 0x04 ltac:(lia) ltac:(lia) _ _ aS dS aK dK IS IK _ _ _ _ _ _ Hl Hx Hy E) as G.
      rewrite <- !(PC.hash128 168 eq_refl). exact G.
  Qed.

  Theorem tuplehash128_eq_total p os s' i j o o' :
    orun tuplehash128 ok_targs short no_reset live_assign p (fun _ => NoObject) os s' -> s' i = Live o -> s' j = Live o' ->
    exists st x y b, oexec (Model.TupleHash.cls128 lg dbg) p (fun _ => None) = Ok (os, st) /\ st i = Some x /\ st j = Some y /\
      tuple_eq x y = Ok b /\ tuple_neq x y = Ok (negb b).
  Proof.
    intros H Hi Hj. destruct cshake128_realizes as (aS & dS & aK & dK & _ & HR & IS & IK & _).
    destruct (eq_total HR tuple_eq) with (3 := Hi) (4 := Hj) (2 := H) as (st & x & y & b & E & E1 & E2 & E3).
    - intros [l c] t b x [l' c'] t' b' y (_ & _ & Hx) (_ & _ & Hy).
      exact (crel_total dbg 21 0x1F 0x04 ltac:(lia) ltac:(lia) _ _ aS dS aK dK IS IK _ _ _ _ _ _ _ _ Hx Hy).
    - exists st, x, y, b. unfold tuple_neq. rewrite E3, bind_ok. auto.
  Qed.

  Theorem tuplehash128_eq_digest p os s' i j l c items c' items' :
    orun tuplehash128 ok_targs short no_reset live_assign p (fun _ => NoObject) os s' ->
    s' i = Live (mkO (l, c) items true) -> s' j = Live (mkO (l, c') items' true) ->
    exists st x y b d e, oexec (Model.TupleHash.cls128 lg dbg) p (fun _ => None) = Ok (os, st) /\ st i = Some x /\ st j = Some y /\
      tuple_eq x y = Ok b /\ oc_vector (Model.TupleHash.cls128 lg dbg) x = Ok d /\ oc_vector (Model.TupleHash.cls128 lg dbg) y = Ok e /\ (b = true -> d = e).
  Proof.
    intros H Hi Hj. destruct cshake128_realizes as (aS & dS & aK & dK & _ & HR & IS & IK & _).
    apply (eq_digest HR tuple_eq (fun a a' => tlen a = tlen a')) with (3 := H) (4 := Hi) (5 := Hj); [| |reflexivity].
    - intros [l0 c0] t b x [l' c1] t' b' y (_ & _ & Hx) (_ & _ & Hy).
      exact (crel_total dbg 21 0x1F 0x04 ltac:(lia) ltac:(lia) _ _ aS dS aK dK IS IK _ _ _ _ _ _ _ _ Hx Hy).
    - intros [l0 c0] t x [l' c1] t' y Hl (_ & _ & Hx) (_ & _ & Hy) E.
      pose proof (fun G => crel_same dbg 21 0x1F 0x04 ltac:(lia) ltac:(lia) _ _ aS dS aK dK IS IK _ _ _ _ _ _ G Hx Hy E) as G.
      rewrite <- !(PT.hash128 168 eq_refl). exact (G Hl).
  Qed.

  (** the same name, customization and message, two digest lengths of at most one block *)
  Theorem cshake128_eq_lengths l l' n c m : (0 <= l <= 168)%Z -> (0 <= l' <= 168)%Z -> short n -> short c -> span_ok m ->
    exists st x y d e, oexec (Model.CShake.cls128 lg dbg)
      [Construct 0 (l, n, c); Feed 0 m; Fin 0; Construct 1 (l', n, c); Feed 1 m; Fin 1] (fun _ => None) = Ok ([], st) /\
      st 0%nat = Some x /\ st 1%nat = Some y /\ cshake_eq x y = Ok true /\
      oc_vector (Model.CShake.cls128 lg dbg) x = Ok d /\ oc_vector (Model.CShake.cls128 lg dbg) y = Ok e /\
      length d = Z.to_nat l /\ length e = Z.to_nat l'.
  Proof.
    intros L L' Hn Hc Hm. destruct cshake128_realizes as (aS & dS & aK & dK & HR & _ & IS & IK & HS & HK).
    set (h := fun (a : Z * list N * list N) l => cshake128 a (concat l)) in *.
    assert (exists s', orun h ok_cargs span_ok may_reset may_assign
      [Construct 0 (l, n, c); Feed 0 m; Fin 0; Construct 1 (l', n, c); Feed 1 m; Fin 1] (fun _ => NoObject) [] s' /\
      s' 0%nat = Live (mkO (l, n, c) [m] true) /\ s' 1%nat = Live (mkO (l', n, c) [m] true)) as (s' & Hr & E0 & E1).
    { eexists. split.
      - refine (or_cons _ _ _ _ _ _ _ _ _ None _ _ (os_construct _ _ _ _ _ _ _ _ _) _); [split; [lia|auto]|].
        refine (or_cons _ _ _ _ _ _ _ _ _ None _ _ (os_feed _ _ _ _ _ 0 m (l, n, c) [] _ _ _) _); [reflexivity|exact Hm|].
        refine (or_cons _ _ _ _ _ _ _ _ _ None _ _ (os_fin _ _ _ _ _ 0 (l, n, c) [m] _ _) _); [reflexivity|].
        refine (or_cons _ _ _ _ _ _ _ _ _ None _ _ (os_construct _ _ _ _ _ _ _ _ _) _); [split; [lia|auto]|].
        refine (or_cons _ _ _ _ _ _ _ _ _ None _ _ (os_feed _ _ _ _ _ 1 m (l', n, c) [] _ _ _) _); [reflexivity|exact Hm|].
        refine (or_cons _ _ _ _ _ _ _ _ _ None _ _ (os_fin _ _ _ _ _ 1 (l', n, c) [m] _ _) _); [reflexivity|].
        apply or_nil.
      - split; reflexivity. }
    destruct (orun_rel HR _ _ _ _ Hr (fun _ => None)) as (st & E & R); [intros k; exact I|].
    pose proof (R 0%nat) as Ri. pose proof (R 1%nat) as Rj. rewrite E0 in Ri. rewrite E1 in Rj.
    destruct Ri as (x & Ex & Rx). destruct Rj as (y & Ey & Ry). cbn [o_args o_items o_done] in *.
    exists st, x, y, (h (l, n, c) [m]), (h (l', n, c) [m]). do 3 (split; [assumption|]).
    split; [|split; [apply (re_vec _ _ _ _ _ _ _ HR _ _ _ Rx)|split; [apply (re_vec _ _ _ _ _ _ _ HR _ _ _ Ry)|]]].
    - apply (crel_lengths dbg 21 0x1F 0x04 ltac:(lia) ltac:(lia) _ _ aS dS aK dK IS IK HS HK l l' n c (concat [m])); try assumption; lia.
    - split; apply Proof.CShake.cshake128_length.
  Qed.
End Sized128.

Section Sized256.
  Variables (lg : N -> N) (dbg : bool).
  Hypothesis Hlog : log2_accurate lg.

  Lemma cshake256_realizes : exists aS dS aK dK,
    (Realizes (Model.CShake.cls256 lg dbg) (fun a l => cshake256 a (concat l)) ok_cargs span_ok may_reset may_assign
      (fun a l b o => PC.crel (8 * 17) aS dS aK dK a (concat l) b o)) /\
    (Realizes (Model.TupleHash.cls256 lg dbg) tuplehash256 ok_targs short no_reset live_assign (PT.trel (8 * 17) aS dS aK dK)) /\
    (forall d, Implements (K.cls (8 * 17) 0x1F dbg d) (Spec.Keccak.shake256 d) (fun _ => True) (aS d) (dS d)) /\
    (forall d, Implements (K.cls (8 * 17) 0x04 dbg d) (PC.hashK256 d) (fun _ => True) (aK d) (dK d)) /\
    (forall d e m, bytes_ok m -> (d <= 8 * 17)%nat -> (e <= 8 * 17)%nat -> K.k_state (snd (dS d m)) = K.k_state (snd (dS e m))) /\
    (forall d e m, bytes_ok m -> (d <= 8 * 17)%nat -> (e <= 8 * 17)%nat -> K.k_state (snd (dK d m)) = K.k_state (snd (dK e m))).
  Proof.
    destruct (stateS256 dbg) as (aS & dS & IS & HS). destruct (stateK256 dbg) as (aK & dK & IK & HK). exists aS, dS, aK, dK.
    split; [|split; [|split; [exact IS|split; [exact IK|split; [exact HS|exact HK]]]]].
    - apply (PC.realizes_ext (Model.CShake.cls256 lg dbg) (fun (a : Z * list N * list N) l => PC.hash 136 Spec.Keccak.shake256 PC.hashK256 a (concat l)));
        [intros a l; apply (PC.hash256 136 eq_refl)|].
      apply (PC.realizes lg dbg Hlog 136 0x1F 0x04 136); try assumption; try reflexivity; lia.
    - apply (PC.realizes_ext (Model.TupleHash.cls256 lg dbg) (PT.hash 136 Spec.Keccak.shake256 PC.hashK256));
        [intros a l; apply (PT.hash256 136 eq_refl)|].
      apply (PT.realizes lg dbg Hlog 136 0x1F 0x04 136); try assumption; try reflexivity; lia.
  Qed.

  Theorem cshake256_eq_total p os s' i j o o' :
    orun (fun a l => cshake256 a (concat l)) ok_cargs span_ok may_reset may_assign p (fun _ => NoObject) os s' -> s' i = Live o -> s' j = Live o' ->
    exists st x y b, oexec (Model.CShake.cls256 lg dbg) p (fun _ => None) = Ok (os, st) /\ st i = Some x /\ st j = Some y /\
      cshake_eq x y = Ok b /\ cshake_neq x y = Ok (negb b).
  Proof.
    intros H Hi Hj. destruct cshake256_realizes as (aS & dS & aK & dK & HR & _ & IS & IK & _).
    destruct (eq_total HR cshake_eq) with (3 := Hi) (4 := Hj) (2 := H) as (st & x & y & b & E & E1 & E2 & E3).
    - intros a l b x a' l' b' y. apply (crel_total dbg 17 0x1F 0x04 ltac:(lia) ltac:(lia) _ _ aS dS aK dK IS IK).
    - exists st, x, y, b. unfold cshake_neq. rewrite E3, bind_ok. auto.
  Qed.

  Theorem cshake256_eq_digest p os s' i j l n c items n' c' items' :
    orun (fun a l => cshake256 a (concat l)) ok_cargs span_ok may_reset may_assign p (fun _ => NoObject) os s' ->
    s' i = Live (mkO (l, n, c) items true) -> s' j = Live (mkO (l, n', c') items' true) ->
    exists st x y b d e, oexec (Model.CShake.cls256 lg dbg) p (fun _ => None) = Ok (os, st) /\ st i = Some x /\ st j = Some y /\
      cshake_eq x y = Ok b /\ oc_vector (Model.CShake.cls256 lg dbg) x = Ok d /\ oc_vector (Model.CShake.cls256 lg dbg) y = Ok e /\ (b = true -> d = e).
  Proof.
    intros H Hi Hj. destruct cshake256_realizes as (aS & dS & aK & dK & HR & _ & IS & IK & _).
    apply (eq_digest HR cshake_eq (fun a a' => clen a = clen a')) with (3 := H) (4 := Hi) (5 := Hj); [| |reflexivity].
    - intros a l0 b x a' l' b' y. apply (crel_total dbg 17 0x1F 0x04 ltac:(lia) ltac:(lia) _ _ aS dS aK dK IS IK).
    - intros a l0 x a' l' y Hl Hx Hy E. 
      pose proof (crel_same dbg 17 0x1F 0x04 ltac:(lia) ltac:(lia) _ _ aS dS aK dK IS IK _ _ _ _ _ _ Hl Hx Hy E) as G.
      rewrite <- !(PC.hash256 136 eq_refl). exact G.
  Qed.

  Theorem tuplehash256_eq_total p os s' i j o o' :
    orun tuplehash256 ok_targs short no_reset live_assign p (fun _ => NoObject) os s' -> s' i = Live o -> s' j = Live o' ->
    exists st x y b, oexec (Model.TupleHash.cls256 lg dbg) p (fun _ => None) = Ok (os, st) /\ st i = Some x /\ st j = Some y /\
      tuple_eq x y = Ok b /\ tuple_neq x y = Ok (negb b).
  Proof.
    intros H Hi Hj. destruct cshake256_realizes as (aS & dS & aK & dK & _ & HR & IS & IK & _).
    destruct (eq_total HR tuple_eq) with (3 := Hi) (4 := Hj) (2 := H) as (st & x & y & b & E & E1 & E2 & E3).
    - intros [l c] t b x [l' c'] t' b' y (_ & _ & Hx) (_ & _ & Hy).
      exact (crel_total dbg 17 0x1F 0x04 ltac:(lia) ltac:(lia) _ _ aS dS aK dK IS IK _ _ _ _ _ _ _ _ Hx Hy).
    - exists st, x, y, b. unfold tuple_neq. rewrite E3, bind_ok. auto.
  Qed.

  Theorem tuplehash256_eq_digest p os s' i j l c items c' items' :
    orun tuplehash256 ok_targs short no_reset live_assign p (fun _ => NoObject) os s' ->
    s' i = Live (mkO (l, c) items true) -> s' j = Live (mkO (l, c') items' true) ->
    exists st x y b d e, oexec (Model.TupleHash.cls256 lg dbg) p (fun _ => None) = Ok (os, st) /\ st i = Some x /\ st j = Some y /\
      tuple_eq x y = Ok b /\ oc_vector (Model.TupleHash.cls256 lg dbg) x = Ok d /\ oc_vector (Model.TupleHash.cls256 lg dbg) y = Ok e /\ (b = true -> d = e).
  Proof.
    intros H Hi Hj. destruct cshake256_realizes as (aS & dS & aK & dK & _ & HR & IS & IK & _).
    apply (eq_digest HR tuple_eq (fun a a' => tlen a = tlen a')) with (3 := H) (4 := Hi) (5 := Hj); [| |reflexivity].
    - intros [l0 c0] t b x [l' c1] t' b' y (_ & _ & Hx) (_ & _ & Hy).
      exact (crel_total dbg 17 0x1F 0x04 ltac:(lia) ltac:(lia) _ _ aS dS aK dK IS IK _ _ _ _ _ _ _ _ Hx Hy).
    - intros [l0 c0] t x [l' c1] t' y Hl (_ & _ & Hx) (_ & _ & Hy) E.
      pose proof (fun G => crel_same dbg 17 0x1F 0x04 ltac:(lia) ltac:(lia) _ _ aS dS aK dK IS IK _ _ _ _ _ _ G Hx Hy E) as G.
      rewrite <- !(PT.hash256 136 eq_refl). exact (G Hl).
  Qed.

  (** the same name, customization and message, two digest lengths of at most one block *)
  Theorem cshake256_eq_lengths l l' n c m : (0 <= l <= 136)%Z -> (0 <= l' <= 136)%Z -> short n -> short c -> span_ok m ->
    exists st x y d e, oexec (Model.CShake.cls256 lg dbg)
      [Construct 0 (l, n, c); Feed 0 m; Fin 0; Construct 1 (l', n, c); Feed 1 m; Fin 1] (fun _ => None) = Ok ([], st) /\
      st 0%nat = Some x /\ st 1%nat = Some y /\ cshake_eq x y = Ok true /\
      oc_vector (Model.CShake.cls256 lg dbg) x = Ok d /\ oc_vector (Model.CShake.cls256 lg dbg) y = Ok e /\
      length d = Z.to_nat l /\ length e = Z.to_nat l'.
  Proof.
    intros L L' Hn Hc Hm. destruct cshake256_realizes as (aS & dS & aK & dK & HR & _ & IS & IK & HS & HK).
    set (h := fun (a : Z * list N * list N) l => cshake256 a (concat l)) in *.
    assert (exists s', orun h ok_cargs span_ok may_reset may_assign
      [Construct 0 (l, n, c); Feed 0 m; Fin 0; Construct 1 (l', n, c); Feed 1 m; Fin 1] (fun _ => NoObject) [] s' /\
      s' 0%nat = Live (mkO (l, n, c) [m] true) /\ s' 1%nat = Live (mkO (l', n, c) [m] true)) as (s' & Hr & E0 & E1).
    { eexists. split.
      - refine (or_cons _ _ _ _ _ _ _ _ _ None _ _ (os_construct _ _ _ _ _ _ _ _ _) _); [split; [lia|auto]|].
        refine (or_cons _ _ _ _ _ _ _ _ _ None _ _ (os_feed _ _ _ _ _ 0 m (l, n, c) [] _ _ _) _); [reflexivity|exact Hm|].
        refine (or_cons _ _ _ _ _ _ _ _ _ None _ _ (os_fin _ _ _ _ _ 0 (l, n, c) [m] _ _) _); [reflexivity|].
        refine (or_cons _ _ _ _ _ _ _ _ _ None _ _ (os_construct _ _ _ _ _ _ _ _ _) _); [split; [lia|auto]|].
        refine (or_cons _ _ _ _ _ _ _ _ _ None _ _ (os_feed _ _ _ _ _ 1 m (l', n, c) [] _ _ _) _); [reflexivity|exact Hm|].
        refine (or_cons _ _ _ _ _ _ _ _ _ None _ _ (os_fin _ _ _ _ _ 1 (l', n, c) [m] _ _) _); [reflexivity|].
        apply or_nil.
      - split; reflexivity. }
    destruct (orun_rel HR _ _ _ _ Hr (fun _ => None)) as (st & E & R); [intros k; exact I|].
    pose proof (R 0%nat) as Ri. pose proof (R 1%nat) as Rj. rewrite E0 in Ri. rewrite E1 in Rj.
    destruct Ri as (x & Ex & Rx). destruct Rj as (y & Ey & Ry). cbn [o_args o_items o_done] in *.
    exists st, x, y, (h (l, n, c) [m]), (h (l', n, c) [m]). do 3 (split; [assumption|]).
    split; [|split; [apply (re_vec _ _ _ _ _ _ _ HR _ _ _ Rx)|split; [apply (re_vec _ _ _ _ _ _ _ HR _ _ _ Ry)|]]].
    - apply (crel_lengths dbg 17 0x1F 0x04 ltac:(lia) ltac:(lia) _ _ aS dS aK dK IS IK HS HK l l' n c (concat [m])); try assumption; lia.
    - split; apply Proof.CShake.cshake256_length.
  Qed.
End Sized256.
