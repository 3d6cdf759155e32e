(** What becomes of a digest when calls outside the interface follow. *)
From Coq Require Import List NArith Arith Bool Lia.
From Verif.Base Require Import Res CWord.
From Verif.Spec Require Import Words Client AnyOrder.
From Verif.Spec Require Crc32.
From Verif.Model Require Import Stream Api.
From Verif.Model Require Library Keccak Crc32.
From Verif.Proof Require Import Words Streaming Blocks Api AnyOrder AnyOrderLibrary.
From Verif.Proof Require Crc32.
Import ListNotations.

(** a class with a predicate [K d x], "[x] holds the digest [d]", that addData() and finalize() maintain *)
Section Keeping.
  Variables (C : HashClass) (K : list N -> Obj C -> Prop).
  Hypothesis Kadd : forall d x m, K d x -> span_ok m -> exists y, c_add C m x = Ok y /\ K d y.
  Hypothesis Kfin : forall d x, K d x -> exists y, c_finalize C x = Ok y /\ K d y.
  Hypothesis Karr : forall d x, K d x -> c_array C x = Ok d /\ bytes_ok d.

  Lemma keeping d : forall qs st, K d (st 0) -> Forall (leaves (length d)) qs ->
    exists st', exec C (map (On 0) qs) st = Ok (flat_map (shows d) qs, st').
  Proof using Kadd Kfin Karr.
    induction qs as [|o qs IH]; intros st Hk Hq; cbn [map exec flat_map]; [eauto|].
    inversion_clear Hq as [|? ? Ho Hq']. destruct (Karr d (st 0) Hk) as [Ea Hd].
    assert (exists y, exec_op C o (st 0) = Ok (y, match shows d o with [w] => Some w | _ => None end) /\ K d y) as (y & Ey & Hy).
    { destruct o as [m| | | | | |k|]; cbn [leaves shows exec_op] in *.
      - destruct (Kadd d _ m Hk Ho) as (y & -> & Hy). rewrite bind_ok. eauto.
      - destruct (Kfin d _ Hk) as (y & -> & Hy). rewrite bind_ok. eauto.
      - destruct Ho.
      - rewrite Ea, bind_ok. eauto.
      - rewrite Ea, bind_ok. eauto.
      - rewrite Ea, bind_ok, to_string_ok, bind_ok; [eauto|exact Hd|]. intros ->. now apply Ho.
      - rewrite Ea, bind_ok, to_uint_ok, bind_ok by exact Hd. eauto.
      - unfold std_hash. rewrite Ea, bind_ok, to_uint_ok, bind_ok by exact Hd. eauto. }
    rewrite Ey, bind_ok. cbn [fst snd].
    destruct (IH (put C st 0 y)) as (st' & E'); [exact Hy|exact Hq'|]. rewrite E', bind_ok. cbn [fst snd]. exists st'.
    destruct o; reflexivity.
  Qed.
End Keeping.

Section Sponge.
  Variables (q : nat) (P : N) (dbg : bool) (n : nat).
  Hypothesis Hq : 0 < q.
  Hypothesis Hq25 : q <= 25.
  Hypothesis HP : (P < 128)%N.
  Let C := MK.cls (8 * q) P dbg n.

  Theorem sponge_frozen x qs : span_ok x -> Forall (leaves n) qs ->
    exists d st, length d = n /\ hash_chunks C [x] = Ok d /\
      exec C (map (On 0) (AddData x :: Finalize :: qs)) (fun _ => c_new C) = Ok (flat_map (shows d) qs, st).
  Proof using Hq Hq25 HP.
    intros Hx Hqs. pose proof (keccak_robust q P dbg n Hq Hq25 HP) as R.
    destruct (sponge_add q dbg n Hq Hq25 false (c_new C) x (ro_new _ _ _ _ _ R) Hx) as (o1 & E1 & H1 & _).
    destruct (sponge_finalize q P dbg n Hq Hq25 HP false o1 H1) as (o2 & E2 & H2 & _).
    change (c_add C x (c_new C) = Ok o1) in E1. change (c_finalize C o1 = Ok o2) in E2.
    set (d := MK.k_final (snd o2)). assert (length d = n) as Ld by apply H2.
    destruct (keeping C (fun d o => sponge_ok q n true o /\ MK.k_final (snd o) = d)) with (d := d) (qs := qs)
      (st := put C (put C (fun _ => c_new C) 0 o1) 0 o2) as (st & E).
    - intros d' o m [Ho <-] Hm. destruct (sponge_add q dbg n Hq Hq25 true o m Ho Hm) as (o' & E & Ho' & Ek). eauto.
    - intros d' o [Ho <-]. destruct (sponge_finalize q P dbg n Hq Hq25 HP true o Ho) as (o' & E & Ho' & Ek). eauto.
    - intros d' o [Ho <-]. split; [reflexivity|apply Ho].
    - split; [exact H2|reflexivity].
    - rewrite Ld. exact Hqs.
    - exists d, st. split; [exact Ld|]. split.
      + unfold hash_chunks. cbn [foldM]. rewrite E1, !bind_ok, E2, bind_ok. reflexivity.
      + cbn [map exec]. unfold exec_op at 1. rewrite E1, !bind_ok. cbn [fst snd]. unfold exec_op at 1. unfold put at 1. cbn [Nat.eqb].
        rewrite E2, !bind_ok. cbn [fst snd]. rewrite E, !bind_ok. reflexivity.
  Qed.

  (** no digest before finalize(): the text is asked of an empty string *)
  Theorem sponge_early ms : Forall span_ok ms ->
    exec C (map (On 0) (map AddData ms ++ [ToString])) (fun _ => c_new C) = Ub EmptyFront.
  Proof using Hq Hq25 HP.
    intros Hms. pose proof (keccak_robust q P dbg n Hq Hq25 HP) as R.
    assert (forall ms (st : store C), sponge_ok q n false (st 0) -> Forall span_ok ms ->
      exec C (map (On 0) (map AddData ms ++ [ToString])) st = Ub EmptyFront) as G.
    { clear ms Hms. induction ms as [|m ms IH]; intros st Ho Hms; cbn [map app exec].
      - unfold exec_op. change (c_array C (st 0)) with (Ok (MK.k_final (snd (st 0)))).
        destruct Ho as (_ & _ & _ & _ & ->). rewrite bind_ok. reflexivity.
      - inversion_clear Hms as [|? ? Hm Hms']. destruct (sponge_add q dbg n Hq Hq25 false (st 0) m Ho Hm) as (o' & E & Ho' & _).
        change (c_add C m (st 0) = Ok o') in E. unfold exec_op at 1. rewrite E, !bind_ok. cbn [fst snd].
        rewrite IH; [reflexivity|exact Ho'|exact Hms']. }
    apply G; [apply (ro_new _ _ _ _ _ R)|exact Hms].
  Qed.
End Sponge.

Theorem library_frozen a dbg x qs : L.sponge a = true -> span_ok x -> Forall (leaves (L.digest_size a)) qs ->
  exists d st, length d = L.digest_size a /\ hash_chunks (L.class a dbg) [x] = Ok d /\
    exec (L.class a dbg) (map (On 0) (AddData x :: Finalize :: qs)) (fun _ => c_new (L.class a dbg)) = Ok (flat_map (shows d) qs, st).
Proof.
  destruct a; try discriminate; intros _ Hx Hq.
  - apply (sponge_frozen 18 6 dbg 28); [lia|lia|reflexivity|exact Hx|exact Hq].
  - apply (sponge_frozen 17 6 dbg 32); [lia|lia|reflexivity|exact Hx|exact Hq].
  - apply (sponge_frozen 13 6 dbg 48); [lia|lia|reflexivity|exact Hx|exact Hq].
  - apply (sponge_frozen 9 6 dbg 64); [lia|lia|reflexivity|exact Hx|exact Hq].
  - apply (sponge_frozen 21 0x1F dbg digestLength); [lia|lia|reflexivity|exact Hx|exact Hq].
  - apply (sponge_frozen 17 0x1F dbg digestLength); [lia|lia|reflexivity|exact Hx|exact Hq].
Qed.

Theorem library_early a dbg ms : L.sponge a = true -> Forall span_ok ms ->
  exec (L.class a dbg) (map (On 0) (map AddData ms ++ [ToString])) (fun _ => c_new (L.class a dbg)) = Ub EmptyFront.
Proof.
  destruct a; try discriminate; intros _ Hx.
  - apply (sponge_early 18 6 dbg 28); [lia|lia|reflexivity|exact Hx].
  - apply (sponge_early 17 6 dbg 32); [lia|lia|reflexivity|exact Hx].
  - apply (sponge_early 13 6 dbg 48); [lia|lia|reflexivity|exact Hx].
  - apply (sponge_early 9 6 dbg 64); [lia|lia|reflexivity|exact Hx].
  - apply (sponge_early 21 0x1F dbg digestLength); [lia|lia|reflexivity|exact Hx].
  - apply (sponge_early 17 0x1F dbg digestLength); [lia|lia|reflexivity|exact Hx].
Qed.

(** ** crc_32.h: finalize() complements the register each time *)
Theorem crc_again x : span_ok x -> exists d d' st, hash_chunks Model.Crc32.cls [x] = Ok d /\
  d = be_bytes 4 (Spec.Crc32.crc32 x) /\ d' = be_bytes 4 (compl 32 (Spec.Crc32.crc32 x)) /\ d <> d' /\
  exec Model.Crc32.cls (map (On 0) [AddData x; Finalize; ToArray; Finalize; ToArray; Finalize; ToArray]) (fun _ => c_new Model.Crc32.cls) =
    Ok ([OBytes d; OBytes d'; OBytes d], st).
Proof.
  intros Hx. pose proof (Crc32.crc32_bnd x) as Hc. set (c := Spec.Crc32.crc32 x) in *.
  assert (bnd 32 (compl 32 c)) as Hc' by (unfold bnd, compl in *; lia).
  assert (Model.Crc32.addDataImpl x Model.Crc32.new = Ok (Crc32.absorb x)) as E1.
  { apply (im_add _ _ _ _ _ Crc32.implements [] x); [constructor|exact Hx]. }
  assert (Model.Crc32.finalize (Crc32.absorb x) = Ok c) as E2.
  { apply (im_fin _ _ _ _ _ Crc32.implements x); [apply Hx|exact I]. }
  assert (forall y, bnd 32 y -> Model.Crc32.toArray y = Ok (be_bytes 4 y)) as Ea.
  { intros y _. unfold Model.Crc32.toArray. rewrite word_bytes_be_ok. apply store_array_eq, be_bytes_length. }
  exists (be_bytes 4 c), (be_bytes 4 (compl 32 c)). eexists. split.
  - unfold hash_chunks. cbn [foldM c_add Model.Crc32.cls c_new c_finalize c_array]. rewrite E1, !bind_ok, E2, bind_ok. now apply Ea.
  - split; [reflexivity|]. split; [reflexivity|]. split.
    + intros E. apply (Crc32.be_bytes_inj 4) in E; [|assumption..]. unfold bnd, compl in *. change (2 ^ 32)%N with 4294967296%N in *. lia.
    + cbn [map exec exec_op c_add c_finalize c_array c_new Model.Crc32.cls]. unfold put at 1. cbn [Nat.eqb].
      rewrite E1, !bind_ok. cbn [fst snd]. unfold put at 1. cbn [Nat.eqb]. rewrite E2, !bind_ok. cbn [fst snd].
      unfold put at 1. cbn [Nat.eqb]. rewrite Ea, !bind_ok by exact Hc. cbn [fst snd]. unfold put at 1. cbn [Nat.eqb]. unfold Model.Crc32.finalize at 1.
      rewrite !bind_ok. cbn [fst snd]. unfold put at 1. cbn [Nat.eqb]. rewrite unot_spec by exact Hc. rewrite Ea, !bind_ok by exact Hc'. cbn [fst snd].
      unfold put at 1. cbn [Nat.eqb]. unfold Model.Crc32.finalize at 1.
      rewrite !bind_ok. cbn [fst snd]. unfold put at 1. cbn [Nat.eqb]. rewrite unot_spec by exact Hc'. rewrite Ea, !bind_ok by (unfold bnd, compl in *; lia). cbn [fst snd].
      assert (compl 32 (compl 32 c) = c) as Ecc by (unfold bnd, compl in *; lia).
      assert (forall (l l' : list obs) (s : store Model.Crc32.cls), l = l' -> Ok (l, s) = Ok (l', s)) as Hl by (intros; subst; reflexivity).
      apply Hl. unfold put. cbn [Nat.eqb]. now rewrite Ecc.
Qed.
