(** cSHAKE: constructor, members, copies and moves. *)
From Coq Require Import List NArith ZArith Arith Bool Lia.
From Verif.Base Require Import Res CWord Double.
From Verif.Spec Require Import Words Client ObjClient Log2 Sp800185 CShakeArgs.
From Verif.Model Require Import Buffer Stream Api ObjApi CShake.
From Verif.Spec Require Keccak.
From Verif.Model Require Keccak.
From Verif.Proof Require Import Words Streaming Blocks Double Api ObjApi Encode.
From Verif.Proof Require Keccak KeccakOut Shake.
Import ListNotations.
Local Open Scope N_scope.
Module K := Verif.Model.Keccak.

Lemma short_span s : short s -> span_ok s.
Proof.
  intros [H1 H2]. split; [exact H1|]. unfold bit_length in H2. change (2 ^ 56 - 2 ^ 8) with 72057594037927680 in H2.
  change (2 ^ 64) with 18446744073709551616. lia.
Qed.

Lemma short_len s : short s -> N.of_nat (length s) < 2 ^ 53.
Proof.
  intros [_ H]. unfold bit_length in H. change (2 ^ 56 - 2 ^ 8) with 72057594037927680 in H.
  change (2 ^ 53) with 9007199254740992. lia.
Qed.

Lemma small_span s : bytes_ok s -> (length s <= 256)%nat -> span_ok s.
Proof. intros H L. split; [exact H|]. change (2 ^ 64) with 18446744073709551616. lia. Qed.

Section Stream.
  Variables (log2 : N -> N) (dbg : bool).
  Hypothesis Hlog : log2_accurate log2.
  Variables (R : nat) (sufS sufK P : N).
  Hypothesis HR0 : (0 < R)%nat.
  Hypothesis HR : (R <= 200)%nat.
  Hypothesis HP : P = N.of_nat R.
  Variables (hashS hashK : nat -> list N -> list N).
  Variables (absS doneS absK doneK : nat -> list N -> Buffer * K.St).
  Hypothesis IS : forall d, Implements (K.cls R sufS dbg d) (hashS d) (fun _ => True) (absS d) (doneS d).
  Hypothesis IK : forall d, Implements (K.cls R sufK dbg d) (hashK d) (fun _ => True) (absK d) (doneK d).

  Definition hash (a : Z * list N * list N) (m : list N) : list N :=
    let '(l, n, c) := a in
    if is_nil n && is_nil c then hashS (Z.to_nat l) m else hashK (Z.to_nat l) (cshake_stream R n c m).

  Definition crel (a : Z * list N * list N) (m : list N) (fin : bool) (o : Obj) : Prop :=
    let '(l, n, c) := a in
    ok_cargs a /\ bytes_ok m /\ m_customized o = customized a /\
    if is_nil n && is_nil c
    then m_shake o = Some ((if fin then doneS else absS) (Z.to_nat l) m)
    else m_keccak o = Some ((if fin then doneK else absK) (Z.to_nat l) (cshake_stream R n c m)).

  (** ** the constructor *)

  Definition kobj (d : nat) (m : list N) : Obj := mkObj true None (Some (absK d m)).

  Lemma kadd d m x : bytes_ok m -> span_ok x -> addData R sufS sufK dbg x (kobj d m) = Ok (kobj d (m ++ x)).
  Proof.
    intros Hm Hx. pose proof (im_add _ _ _ _ _ (IK d) m x Hm Hx) as E. cbn [c_add K.cls] in E.
    unfold addData, on_selected, kobj. cbn [m_customized m_keccak m_shake negb deref]. rewrite bind_ok, E. reflexivity.
  Qed.

  Lemma enc_len s : short s -> (length (encode_string s) <= length s + 256)%nat.
  Proof.
    intros [_ H]. unfold encode_string. rewrite app_length. pose proof (left_encode_length _ (max_2040 _ H)). lia.
  Qed.

  Lemma enc_bytes s : short s -> bytes_ok (encode_string s).
  Proof.
    intros H. apply bytes_ok_app. split; [|apply H]. apply left_encode_bytes, max_2040, H.
  Qed.

  Lemma process_ok d m s : bytes_ok m -> short s -> N.of_nat (length m) < 2 ^ 60 ->
    processString log2 R sufS sufK dbg s (kobj d m) (N.of_nat (length m)) =
    Ok (kobj d (m ++ encode_string s), N.of_nat (length (m ++ encode_string s))).
  Proof.
    intros Hm Hs Hl. unfold processString. pose proof (short_len s Hs) as Hsl. pose proof (proj2 Hs) as Hb.
    assert (umul 64 (N.of_nat (length s)) 8 = bit_length s) as ->.
    { unfold umul. rewrite trunc_id; [unfold bit_length; lia|]. unfold bnd. change (2 ^ 53) with 9007199254740992 in Hsl.
      change (2 ^ 64) with 18446744073709551616. lia. }
    rewrite (leftEncode_ok log2 dbg Hlog _ Hb), bind_ok, canon_span, canon_size.
    pose proof (left_encode_length _ (max_2040 _ Hb)) as LL. pose proof (left_encode_bytes _ (max_2040 _ Hb)) as LB.
    rewrite kadd; [|exact Hm|apply small_span; [exact LB|lia]]. rewrite bind_ok.
    rewrite kadd; [|apply bytes_ok_app; auto|now apply short_span]. rewrite bind_ok.
    unfold encode_string. rewrite <- app_assoc. f_equal. f_equal. unfold uadd. rewrite !app_length.
    change (2 ^ 53) with 9007199254740992 in Hsl. change (2 ^ 60) with 1152921504606846976 in Hl.
    rewrite (trunc_id 64 (N.of_nat (length m) + _)) by (unfold bnd; change (2 ^ 64) with 18446744073709551616; lia).
    rewrite trunc_id by (unfold bnd; change (2 ^ 64) with 18446744073709551616; lia). lia.
  Qed.

  Lemma zeros_ok d : forall k m f, bytes_ok m ->
    for_ f k (fun _ o => addData R sufS sufK dbg [0] o) (kobj d m) = Ok (kobj d (m ++ repeat 0 k)).
  Proof.
    induction k as [|k IH]; intros m f Hm; cbn [for_ repeat]; [now rewrite app_nil_r|].
    rewrite kadd; [|exact Hm|apply small_span; [repeat constructor|cbn; lia]]. rewrite bind_ok.
    rewrite IH by (apply bytes_ok_app; split; [exact Hm|repeat constructor]). now rewrite <- app_assoc.
  Qed.

  Lemma P_small : N.of_nat R <= 2 ^ 56 - 2 ^ 8.
  Proof. change (2 ^ 56 - 2 ^ 8) with 72057594037927680. lia. Qed.

  Lemma pad_count z : N.to_nat (bytepadCount (N.of_nat z) (N.of_nat R)) = ((R - z mod R) mod R)%nat.
  Proof.
    unfold bytepadCount. rewrite N2Nat.inj_mod, N2Nat.inj_sub, N2Nat.inj_mod, !Nat2N.id. reflexivity.
  Qed.

  Lemma is_empty_nil s : is_empty s = is_nil s.
  Proof. reflexivity. Qed.

  (** the other pointer of a new object is null *)
  Definition other_null (o : Obj) : Prop := if m_customized o then m_shake o = None else m_keccak o = None.

  Lemma construct_full l n c : ok_cargs (l, n, c) ->
    exists o, construct log2 R sufS sufK P dbg l n c = Ok o /\ crel (l, n, c) [] false o /\ other_null o.
  Proof.
    intros Ha. pose proof Ha as (Hl & Hn & Hc). unfold construct. rewrite (is_empty_nil n), (is_empty_nil c).
    assert (forall suf, K.construct R l = Ok (c_new (K.cls R suf dbg (Z.to_nat l)))) as EK.
    { intros suf. unfold K.construct. destruct (Z.ltb_spec l 0); [lia|reflexivity]. }
    unfold crel. destruct (is_nil n && is_nil c) eqn:En; cbn [negb].
    - rewrite (EK sufS), bind_ok. eexists. split; [reflexivity|]. split; [|reflexivity]. split; [exact Ha|]. split; [constructor|].
      cbn [m_customized m_shake]. split; [unfold customized; now rewrite En|]. f_equal. apply (im_new _ _ _ _ _ (IS (Z.to_nat l))).
    - rewrite (EK sufK), bind_ok. rewrite (im_new _ _ _ _ _ (IK (Z.to_nat l))).
      change (mkObj true None (Some (absK (Z.to_nat l) []))) with (kobj (Z.to_nat l) []).
      rewrite HP. rewrite (leftEncode_ok log2 dbg Hlog _ P_small), bind_ok, canon_span, canon_size.
      pose proof (left_encode_length _ (max_2040 _ P_small)) as LL. pose proof (left_encode_bytes _ (max_2040 _ P_small)) as LB.
      set (w := left_encode (N.of_nat R)) in *.
      rewrite kadd; [|constructor|apply small_span; [exact LB|lia]]. rewrite bind_ok. cbn [app].
      replace (uadd 64 0 (N.of_nat (length w))) with (N.of_nat (length w))
        by (unfold uadd; rewrite trunc_id; [lia|unfold bnd; change (2 ^ 64) with 18446744073709551616; lia]).
      rewrite process_ok; [|exact LB|exact Hn|change (2 ^ 60) with 1152921504606846976; lia]. rewrite bind_ok.
      pose proof (enc_len n Hn) as Ln. pose proof (short_len n Hn) as Sn. pose proof (enc_bytes n Hn) as Bn. pose proof (enc_bytes c Hc) as Bc.
      rewrite process_ok; [|apply bytes_ok_app; auto|exact Hc|rewrite app_length; change (2 ^ 60) with 1152921504606846976; change (2 ^ 53) with 9007199254740992 in Sn; lia].
      rewrite bind_ok, pad_count, zeros_ok by (rewrite !bytes_ok_app; auto).
      eexists. split; [reflexivity|]. split; [|reflexivity]. split; [exact Ha|]. split; [constructor|]. cbn [m_customized m_keccak kobj].
      split; [unfold customized; now rewrite En|]. unfold cshake_stream, bytepad. fold w. rewrite app_nil_r, <- !app_assoc. reflexivity.
  Qed.

  Lemma construct_ok l n c : ok_cargs (l, n, c) ->
    exists o, construct log2 R sufS sufK P dbg l n c = Ok o /\ crel (l, n, c) [] false o.
  Proof. intros Ha. destruct (construct_full l n c Ha) as (o & E & Ro & _). eauto. Qed.

  Lemma construct_negative l n c : (l < 0)%Z -> construct log2 R sufS sufK P dbg l n c = Throw LengthError.
  Proof using.
    intros Hl. unfold construct, K.construct. apply Z.ltb_lt in Hl. rewrite Hl. destruct (negb _); reflexivity.
  Qed.

  Lemma process_long s o z : long s ->
    processString log2 R sufS sufK dbg s o z = if dbg then Throw OutOfRange else Ub OobWrite.
  Proof.
    intros [_ Hs]. unfold processString.
    assert (umul 64 (N.of_nat (length s)) 8 = bit_length s) as ->.
    { unfold umul. rewrite trunc_id; [unfold bit_length; lia|]. unfold bnd, bit_length in *. 
      change (2 ^ 64) with 18446744073709551616. change (2 ^ 63) with 9223372036854775808 in Hs. lia. }
    rewrite (leftEncode_overflow log2 dbg Hlog _ Hs). now destruct dbg.
  Qed.

  Lemma long_nil s : long s -> is_nil s = false.
  Proof. intros [_ [H _]]. destruct s; [|reflexivity]. exfalso. revert H. unfold bit_length. cbn [length]. now apply N.lt_nge. Qed.

  Lemma construct_long l n c : (0 <= l)%Z -> long n \/ short n /\ long c ->
    construct log2 R sufS sufK P dbg l n c = if dbg then Throw OutOfRange else Ub OobWrite.
  Proof.
    intros Hl Hs. unfold construct. rewrite (is_empty_nil n), (is_empty_nil c).
    assert (is_nil n && is_nil c = false) as -> by (destruct Hs as [Hs|[_ Hs]]; rewrite (long_nil _ Hs); [reflexivity|apply andb_false_r]).
    cbn [negb].
    assert (K.construct R l = Ok (c_new (K.cls R sufK dbg (Z.to_nat l)))) as ->.
    { unfold K.construct. destruct (Z.ltb_spec l 0); [lia|reflexivity]. }
    rewrite bind_ok, (im_new _ _ _ _ _ (IK (Z.to_nat l))).
    change (mkObj true None (Some (absK (Z.to_nat l) []))) with (kobj (Z.to_nat l) []).
    rewrite HP. rewrite (leftEncode_ok log2 dbg Hlog _ P_small), bind_ok, canon_span, canon_size.
    pose proof (left_encode_length _ (max_2040 _ P_small)) as LL. pose proof (left_encode_bytes _ (max_2040 _ P_small)) as LB.
    set (w := left_encode (N.of_nat R)) in *.
    rewrite kadd; [|constructor|apply small_span; [exact LB|lia]]. rewrite bind_ok. cbn [app].
    destruct Hs as [Hs|[Hn Hs]]; [rewrite process_long by exact Hs; now destruct dbg|].
    replace (uadd 64 0 (N.of_nat (length w))) with (N.of_nat (length w))
      by (unfold uadd; rewrite trunc_id; [lia|unfold bnd; change (2 ^ 64) with 18446744073709551616; lia]).
    rewrite process_ok; [|exact LB|exact Hn|change (2 ^ 60) with 1152921504606846976; lia]. rewrite bind_ok.
    rewrite process_long by exact Hs. now destruct dbg.
  Qed.

  (** ** members *)

  Lemma stream_app n c m x : cshake_stream R n c (m ++ x) = cshake_stream R n c m ++ x.
  Proof. unfold cshake_stream. now rewrite app_assoc. Qed.

  Lemma stream_bytes n c m : short n -> short c -> bytes_ok m -> bytes_ok (cshake_stream R n c m).
  Proof.
    intros Hn Hc Hm. unfold cshake_stream, bytepad. rewrite !bytes_ok_app. repeat split; auto using enc_bytes.
    - apply left_encode_bytes, max_2040, P_small.
    - apply bytes_ok_repeat. reflexivity.
  Qed.

  Ltac setup Hr :=
    let Ha := fresh "Ha" in let Hm := fresh "Hm" in let Hcu := fresh "Hcu" in let Hp := fresh "Hp" in
    destruct Hr as (Ha & Hm & Hcu & Hp).

  Lemma add_ok a m x o : crel a m false o -> span_ok x -> exists o', addData R sufS sufK dbg x o = Ok o' /\ crel a (m ++ x) false o'.
  Proof.
    destruct a as [[l n] c]. intros (Ha & Hm & Hcu & Hp) Hx. pose proof Ha as (_ & Hn & Hc).
    assert (bytes_ok (m ++ x)) as Hmx by (apply bytes_ok_app; split; [exact Hm|apply Hx]).
    unfold addData, on_selected, crel. rewrite Hcu. unfold customized in *. destruct (is_nil n && is_nil c); cbn [negb].
    - rewrite Hp. cbn [deref]. rewrite bind_ok. pose proof (im_add _ _ _ _ _ (IS (Z.to_nat l)) m x Hm Hx) as E. cbn [c_add K.cls] in E.
      rewrite E, bind_ok. eexists. split; [reflexivity|]. cbn [m_customized m_shake]. auto.
    - rewrite Hp. cbn [deref]. rewrite bind_ok.
      pose proof (im_add _ _ _ _ _ (IK (Z.to_nat l)) _ x (stream_bytes n c m Hn Hc Hm) Hx) as E. cbn [c_add K.cls] in E.
      rewrite E, bind_ok, <- stream_app. eexists. split; [reflexivity|]. cbn [m_customized m_keccak]. auto.
  Qed.

  Lemma fin_ok a m o : crel a m false o -> exists o', finalize R sufS sufK dbg o = Ok o' /\ crel a m true o'.
  Proof.
    destruct a as [[l n] c]. intros (Ha & Hm & Hcu & Hp). pose proof Ha as (_ & Hn & Hc).
    unfold finalize, on_selected, crel. rewrite Hcu. unfold customized in *. destruct (is_nil n && is_nil c); cbn [negb].
    - rewrite Hp. cbn [deref]. rewrite bind_ok. pose proof (im_fin _ _ _ _ _ (IS (Z.to_nat l)) m Hm I) as E. cbn [c_finalize K.cls] in E.
      rewrite E, bind_ok. eexists. split; [reflexivity|]. cbn [m_customized m_shake]. auto.
    - rewrite Hp. cbn [deref]. rewrite bind_ok.
      pose proof (im_fin _ _ _ _ _ (IK (Z.to_nat l)) _ (stream_bytes n c m Hn Hc Hm) I) as E. cbn [c_finalize K.cls] in E.
      rewrite E, bind_ok. eexists. split; [reflexivity|]. cbn [m_customized m_keccak]. auto.
  Qed.

  Lemma vec_ok a m o : crel a m true o -> toVector o = Ok (hash a m) /\ bytes_ok (hash a m).
  Proof.
    destruct a as [[l n] c]. intros (Ha & Hm & Hcu & Hp). pose proof Ha as (_ & Hn & Hc).
    unfold toVector, hash. rewrite Hcu. unfold customized. destruct (is_nil n && is_nil c); cbn [negb].
    - rewrite Hp. cbn [deref]. rewrite bind_ok. split; [|now apply (im_bytes _ _ _ _ _ (IS (Z.to_nat l)))].
      exact (im_read _ _ _ _ _ (IS (Z.to_nat l)) m Hm I).
    - rewrite Hp. cbn [deref]. rewrite bind_ok. pose proof (stream_bytes n c m Hn Hc Hm) as Hs.
      split; [|now apply (im_bytes _ _ _ _ _ (IK (Z.to_nat l)))]. exact (im_read _ _ _ _ _ (IK (Z.to_nat l)) _ Hs I).
  Qed.

  Lemma reset_ok a m b o : crel a m b o -> may_reset a -> exists o', reset sufS sufK o = Ok o' /\ crel a [] false o'.
  Proof.
    destruct a as [[l n] c]. intros (Ha & Hm & Hcu & Hp) Hr. unfold may_reset in Hr.
    unfold reset, on_selected, crel. rewrite Hcu, Hr. unfold customized in *.
    apply negb_false_iff in Hr. rewrite Hr in *. cbn [negb] in *. rewrite Hp. cbn [deref]. rewrite bind_ok.
    eexists. split; [reflexivity|]. cbn [m_customized m_shake]. split; [exact Ha|]. split; [constructor|]. split; [reflexivity|].
    f_equal. rewrite <- (im_new _ _ _ _ _ (IS (Z.to_nat l))).
    destruct b; [apply (im_reset_d _ _ _ _ _ (IS (Z.to_nat l)) m Hm I)|apply (im_reset_a _ _ _ _ _ (IS (Z.to_nat l)) m Hm)].
  Qed.

  Lemma copy_ok a m b o : crel a m b o -> exists o', copy_construct o = Ok o' /\ crel a m b o'.
  Proof.
    destruct a as [[l n] c]. intros (Ha & Hm & Hcu & Hp). unfold copy_construct, crel. rewrite Hcu. unfold customized in *.
    destruct (is_nil n && is_nil c); cbn [negb]; rewrite Hp; cbn [deref]; rewrite bind_ok; eexists; (split; [reflexivity|]); auto.
  Qed.

  Lemma swap_ok t a m b o : crel a m b o -> crel a m b (fst (swap_selected t o)).
  Proof.
    destruct a as [[l n] c]. intros (Ha & Hm & Hcu & Hp). unfold swap_selected, crel. rewrite Hcu. unfold customized in *.
    destruct (is_nil n && is_nil c); cbn [negb fst m_customized m_shake m_keccak]; auto.
  Qed.

  Lemma assign_ok t a' m' b' a m b o : crel a m b o -> crel a' m' b' t -> customized a' = customized a ->
    exists o', copy_assign t o = Ok o' /\ crel a m b o'.
  Proof.
    destruct a as [[l n] c], a' as [[l' n'] c']. intros (Ha & Hm & Hcu & Hp) (_ & _ & _ & Hp') E.
    unfold copy_assign, crel. rewrite Hcu. unfold customized in *.
    destruct (is_nil n && is_nil c), (is_nil n' && is_nil c'); try discriminate; cbn [negb]; rewrite Hp, Hp'; cbn [deref];
      rewrite !bind_ok; eexists; (split; [reflexivity|]); auto.
  Qed.

  (** assigning across the two kinds of new objects *)
  Lemma assign_null t a' m' b' a m b o : crel a m b o -> crel a' m' b' t -> other_null t -> customized a' <> customized a ->
    copy_assign t o = Ub NullDeref.
  Proof.
    destruct a as [[l n] c], a' as [[l' n'] c']. intros (_ & _ & Hcu & _) (_ & _ & Hcu' & _) Ho E.
    unfold copy_assign. unfold other_null in Ho. rewrite Hcu' in Ho. rewrite Hcu.
    destruct (customized (l, n, c)), (customized (l', n', c')); try contradiction; cbn [negb]; now rewrite Ho.
  Qed.

  (** assigning to an object whose state was moved into a new one *)
  Lemma assign_moved t a' m' b' a m b o : crel a m b o -> crel a' m' b' t -> other_null t ->
    copy_assign (snd (move_construct t)) o = Ub NullDeref.
  Proof.
    destruct a as [[l n] c], a' as [[l' n'] c']. intros (_ & _ & Hcu & _) (_ & _ & Hcu' & _) Ho.
    unfold copy_assign, move_construct, swap_selected. unfold other_null in Ho. rewrite Hcu' in *. rewrite Hcu.
    destruct (customized (l, n, c)), (customized (l', n', c')); cbn [negb m_customized m_shake m_keccak snd]; try rewrite Ho; reflexivity.
  Qed.

  (** ** what reset() leaves of a customized object: the bare Keccak object *)

  Definition raw (d : nat) (m : list N) (fin : bool) (o : Obj) : Prop :=
    bytes_ok m /\ m_customized o = true /\ m_keccak o = Some ((if fin then doneK else absK) d m).

  Lemma reset_raw a m b o : crel a m b o -> customized a = true ->
    exists o', reset sufS sufK o = Ok o' /\ raw (Z.to_nat (fst (fst a))) [] false o'.
  Proof.
    destruct a as [[l n] c]. intros (Ha & Hm & Hcu & Hp) Hr. pose proof Ha as (_ & Hn & Hc).
    unfold reset, on_selected, raw. rewrite Hcu, Hr. unfold customized in Hr. apply negb_true_iff in Hr. rewrite Hr in Hp.
    rewrite Hp. cbn [negb deref fst]. rewrite bind_ok. eexists. split; [reflexivity|]. cbn [m_customized m_keccak].
    split; [constructor|]. split; [reflexivity|]. f_equal. rewrite <- (im_new _ _ _ _ _ (IK (Z.to_nat l))).
    pose proof (stream_bytes n c m Hn Hc Hm) as Hs.
    destruct b; [apply (im_reset_d _ _ _ _ _ (IK (Z.to_nat l)) _ Hs I)|apply (im_reset_a _ _ _ _ _ (IK (Z.to_nat l)) _ Hs)].
  Qed.
  Lemma raw_add d m o x : raw d m false o -> span_ok x -> exists o', addData R sufS sufK dbg x o = Ok o' /\ raw d (m ++ x) false o'.
  Proof.
    intros (Hm & Hcu & Hp) Hx. unfold addData, on_selected, raw. rewrite Hcu, Hp. cbn [negb deref]. rewrite bind_ok.
    pose proof (im_add _ _ _ _ _ (IK d) m x Hm Hx) as E. cbn [c_add K.cls] in E. rewrite E, bind_ok.
    eexists. split; [reflexivity|]. cbn [m_customized m_keccak]. split; [apply bytes_ok_app; split; [exact Hm|apply Hx]|auto].
  Qed.
  Lemma raw_fin d m o : raw d m false o -> exists o', finalize R sufS sufK dbg o = Ok o' /\ raw d m true o'.
  Proof.
    intros (Hm & Hcu & Hp). unfold finalize, on_selected, raw. rewrite Hcu, Hp. cbn [negb deref]. rewrite bind_ok.
    pose proof (im_fin _ _ _ _ _ (IK d) m Hm I) as E. cbn [c_finalize K.cls] in E. rewrite E, bind_ok.
    eexists. split; [reflexivity|]. auto.
  Qed.
  Lemma raw_vec d m o : raw d m true o -> toVector o = Ok (hashK d m).
  Proof.
    intros (Hm & Hcu & Hp). unfold toVector. rewrite Hcu, Hp. cbn [negb deref]. rewrite bind_ok.
    exact (im_read _ _ _ _ _ (IK d) m Hm I).
  Qed.

  Notation C := (cls log2 R sufS sufK P dbg).

  Theorem reset_drops a x y : ok_cargs a -> customized a = true -> span_ok x -> span_ok y ->
    exists st, oexec C [Construct 0 a; Feed 0 x; Rst 0; Feed 0 y; Fin 0; Vec 0] (fun _ => None) =
      Ok ([OBytes (hashK (Z.to_nat (fst (fst a))) y)], st).
  Proof.
    intros Ha Hcu Hx Hy. destruct a as [[l n] c]. destruct (construct_ok l n c Ha) as (o1 & E1 & R1).
    destruct (add_ok _ _ x o1 R1 Hx) as (o2 & E2 & R2). destruct (reset_raw _ _ _ o2 R2 Hcu) as (o3 & E3 & R3).
    destruct (raw_add _ _ o3 y R3 Hy) as (o4 & E4 & R4). destruct (raw_fin _ _ o4 R4) as (o5 & E5 & R5).
    pose proof (raw_vec _ _ o5 R5) as E6. cbn [fst app] in *. eexists.
    cbn [oexec exec_ocmd cls oc_construct]. rewrite E1, !bind_ok. cbn [fst snd].
    unfold update at 1, sget at 1, sput at 1. cbn [Nat.eqb]. rewrite bind_ok. cbn [cls oc_feed]. rewrite E2, !bind_ok. cbn [fst snd].
    unfold update at 1, sget at 1, sput at 1. cbn [Nat.eqb]. rewrite bind_ok. cbn [cls oc_reset]. rewrite E3, !bind_ok. cbn [fst snd].
    unfold update at 1, sget at 1, sput at 1. cbn [Nat.eqb]. rewrite bind_ok. cbn [cls oc_feed]. rewrite E4, !bind_ok. cbn [fst snd].
    unfold update at 1, sget at 1, sput at 1. cbn [Nat.eqb]. rewrite bind_ok. cbn [cls oc_finalize]. rewrite E5, !bind_ok. cbn [fst snd].
    unfold observe, sget at 1, sput at 1. cbn [Nat.eqb]. rewrite bind_ok. cbn [cls oc_vector]. rewrite E6, !bind_ok. cbn [fst snd].
    reflexivity.
  Qed.

  Theorem assign_refuted a a' : ok_cargs a -> ok_cargs a' -> customized a' <> customized a ->
    oexec C [Construct 0 a'; Construct 1 a; CopyAssign 0 1] (fun _ => None) = Ub NullDeref.
  Proof.
    intros Ha Ha' Hne. destruct a as [[l n] c], a' as [[l' n'] c'].
    destruct (construct_full l n c Ha) as (o & E & Ro & _). destruct (construct_full l' n' c' Ha') as (t & E' & Rt & Ht).
    cbn [oexec exec_ocmd cls oc_construct]. rewrite E', !bind_ok, E, !bind_ok. cbn [fst snd].
    unfold sget, sput. cbn [Nat.eqb]. rewrite !bind_ok. cbn [cls oc_assign].
    now rewrite (assign_null t _ _ _ _ _ _ o Ro Rt Ht Hne).
  Qed.

  Theorem assign_moved_refuted a a' : ok_cargs a -> ok_cargs a' ->
    oexec C [Construct 0 a'; Construct 1 a; MoveConstruct 2 0; CopyAssign 0 1] (fun _ => None) = Ub NullDeref.
  Proof.
    intros Ha Ha'. destruct a as [[l n] c], a' as [[l' n'] c'].
    destruct (construct_full l n c Ha) as (o & E & Ro & _). destruct (construct_full l' n' c' Ha') as (t & E' & Rt & Ht).
    pose proof (assign_moved t _ _ _ _ _ _ o Ro Rt Ht) as Hn.
    cbn [oexec exec_ocmd cls oc_construct]. rewrite E', !bind_ok, E, !bind_ok. cbn [fst snd].
    unfold sget at 1, sput at 1 2. cbn [Nat.eqb]. rewrite bind_ok. cbn [cls oc_move]. destruct (move_construct t) as [u v]. cbn [snd] in Hn.
    rewrite !bind_ok. cbn [fst snd]. unfold sget, sput. cbn [Nat.eqb]. rewrite !bind_ok. cbn [cls oc_assign].
    now rewrite Hn.
  Qed.

  Lemma concat_snoc {A} (l : list (list A)) x : concat (l ++ [x]) = concat l ++ x.
  Proof. rewrite concat_app. cbn [concat]. now rewrite app_nil_r. Qed.

  Theorem realizes : Realizes (cls log2 R sufS sufK P dbg) (fun a l => hash a (concat l)) ok_cargs span_ok may_reset may_assign
    (fun a l b o => crel a (concat l) b o).
  Proof.
    constructor; cbn [cls Args OObj oc_construct oc_feed oc_finalize oc_reset oc_vector oc_copy oc_move oc_assign oc_massign].
    - intros [[l n] c] Ha. now apply construct_ok.
    - intros a l x d Hx Hd. rewrite concat_snoc. now apply add_ok.
    - intros a l x. apply fin_ok.
    - intros a l b x Hx Hr. cbn [concat]. now apply (reset_ok a (concat l) b).
    - intros a l x. apply vec_ok.
    - intros a l b x. apply copy_ok.
    - intros a l b x. apply swap_ok.
    - intros sl x a l b y Hy Hm Hsl. destruct sl as [| |o']; cbn [may_assign] in Hm; try contradiction.
      now apply (assign_ok x (o_args o') (concat (o_items o')) (o_done o')).
    - intros x a l b y. apply swap_ok.
    - intros a H. exact H.
  Qed.
End Stream.

(** ** the instances *)

Definition sfx_cshake : Spec.Keccak.bits := [false; false].

Definition hashK128 d m := Spec.Keccak.bytes_of (Spec.Keccak.keccak 256 (8 * d) (Spec.Keccak.bits_of m ++ [false; false])).
Definition hashK256 d m := Spec.Keccak.bytes_of (Spec.Keccak.keccak 512 (8 * d) (Spec.Keccak.bits_of m ++ [false; false])).

Lemma uniformS128 dbg : exists absorb done : nat -> list N -> Buffer * K.St,
  forall d, Implements (K.cls (1344 / 8) 0x1F dbg d) (Spec.Keccak.shake128 d) (fun _ => True) (absorb d) (done d).
Proof. apply (Keccak.instance_uniform 21 0x1F dbg Keccak.sfx_shake _ 1344); try reflexivity; cbn; lia. Qed.
Lemma uniformS256 dbg : exists absorb done : nat -> list N -> Buffer * K.St,
  forall d, Implements (K.cls (1088 / 8) 0x1F dbg d) (Spec.Keccak.shake256 d) (fun _ => True) (absorb d) (done d).
Proof. apply (Keccak.instance_uniform 17 0x1F dbg Keccak.sfx_shake _ 1088); try reflexivity; cbn; lia. Qed.
Lemma uniformK128 dbg : exists absorb done : nat -> list N -> Buffer * K.St,
  forall d, Implements (K.cls (1344 / 8) 0x04 dbg d) (hashK128 d) (fun _ => True) (absorb d) (done d).
Proof. apply (Keccak.instance_uniform 21 0x04 dbg sfx_cshake _ 1344); try reflexivity; cbn; lia. Qed.
Lemma uniformK256 dbg : exists absorb done : nat -> list N -> Buffer * K.St,
  forall d, Implements (K.cls (1088 / 8) 0x04 dbg d) (hashK256 d) (fun _ => True) (absorb d) (done d).
Proof. apply (Keccak.instance_uniform 17 0x04 dbg sfx_cshake _ 1088); try reflexivity; cbn; lia. Qed.

Lemma realizes_ext C h1 h2 ok_args ok_item may_reset may_assign rel : (forall a l, h1 a l = h2 a l) ->
  Realizes C h1 ok_args ok_item may_reset may_assign rel -> Realizes C h2 ok_args ok_item may_reset may_assign rel.
Proof.
  intros E [A B D F G H J L M O]. constructor; try assumption. intros a l x Hx. rewrite <- E. now apply G.
Qed.

(** the hash of a class with the given rate is the function of the standard *)
Lemma hash128 R : R = 168%nat -> forall a m, hash R Spec.Keccak.shake128 hashK128 a m = cshake128 a m.
Proof. intros -> [[l n] c] m. reflexivity. Qed.
Lemma hash256 R : R = 136%nat -> forall a m, hash R Spec.Keccak.shake256 hashK256 a m = cshake256 a m.
Proof. intros -> [[l n] c] m. reflexivity. Qed.

Lemma R128 : (1344 / 8)%nat = 168%nat. Proof. reflexivity. Qed.
Lemma R256 : (1088 / 8)%nat = 136%nat. Proof. reflexivity. Qed.

Theorem cshake128_correct log2 dbg : log2_accurate log2 ->
  ObjCorrect (cls128 log2 dbg) (fun a l => cshake128 a (concat l)) ok_cargs span_ok may_reset may_assign.
Proof.
  intros Hlog. destruct (uniformS128 dbg) as (aS & dS & IS). destruct (uniformK128 dbg) as (aK & dK & IK).
  exists (fun a l b o => crel (1344 / 8) aS dS aK dK a (concat l) b o).
  apply (realizes_ext (cls128 log2 dbg) (fun (a : Z * list N * list N) l => hash (1344 / 8) Spec.Keccak.shake128 hashK128 a (concat l))); [intros a l; apply (hash128 _ R128)|].
  apply realizes; auto; rewrite R128; try reflexivity; lia.
Qed.
Theorem cshake256_correct log2 dbg : log2_accurate log2 ->
  ObjCorrect (cls256 log2 dbg) (fun a l => cshake256 a (concat l)) ok_cargs span_ok may_reset may_assign.
Proof.
  intros Hlog. destruct (uniformS256 dbg) as (aS & dS & IS). destruct (uniformK256 dbg) as (aK & dK & IK).
  exists (fun a l b o => crel (1088 / 8) aS dS aK dK a (concat l) b o).
  apply (realizes_ext (cls256 log2 dbg) (fun (a : Z * list N * list N) l => hash (1088 / 8) Spec.Keccak.shake256 hashK256 a (concat l))); [intros a l; apply (hash256 _ R256)|].
  apply realizes; auto; rewrite R256; try reflexivity; lia.
Qed.

(** ** the instances of the other facts *)
Ltac inst := first [assumption | (rewrite R128 || rewrite R256); first [reflexivity | lia]].

Lemma chunksK128 dbg d chunks : Forall span_ok chunks -> hash_chunks (K.cls (1344 / 8) 0x04 dbg d) chunks = Ok (hashK128 d (concat chunks)).
Proof.
  intros H. destruct (uniformK128 dbg) as (aK & dK & IK). apply (correct_chunks _ _ (fun _ => True)); [|exact H|exact I].
  exists (aK d), (dK d). apply IK.
Qed.
Lemma chunksK256 dbg d chunks : Forall span_ok chunks -> hash_chunks (K.cls (1088 / 8) 0x04 dbg d) chunks = Ok (hashK256 d (concat chunks)).
Proof.
  intros H. destruct (uniformK256 dbg) as (aK & dK & IK). apply (correct_chunks _ _ (fun _ => True)); [|exact H|exact I].
  exists (aK d), (dK d). apply IK.
Qed.

Theorem cshake128_hash log2 dbg l n c chunks : log2_accurate log2 -> (0 <= l)%Z -> short n -> short c -> Forall span_ok chunks ->
  ohash (cls128 log2 dbg) (l, n, c) chunks = Ok (Sp800185.cshake128 (Z.to_nat l) n c (concat chunks)).
Proof. intros Hlog Hl Hn Hc H. apply (objcorrect_hash _ _ _ _ _ _ (cshake128_correct log2 dbg Hlog) (l, n, c)); [split; auto|exact H]. Qed.
Theorem cshake256_hash log2 dbg l n c chunks : log2_accurate log2 -> (0 <= l)%Z -> short n -> short c -> Forall span_ok chunks ->
  ohash (cls256 log2 dbg) (l, n, c) chunks = Ok (Sp800185.cshake256 (Z.to_nat l) n c (concat chunks)).
Proof. intros Hlog Hl Hn Hc H. apply (objcorrect_hash _ _ _ _ _ _ (cshake256_correct log2 dbg Hlog) (l, n, c)); [split; auto|exact H]. Qed.

Theorem cshake128_long log2 dbg l n c chunks : log2_accurate log2 -> (0 <= l)%Z -> long n \/ short n /\ long c ->
  ohash (cls128 log2 dbg) (l, n, c) chunks = if dbg then Throw OutOfRange else Ub OobWrite.
Proof.
  intros Hlog Hl Hs. destruct (uniformS128 dbg) as (aS & dS & IS). destruct (uniformK128 dbg) as (aK & dK & IK). unfold ohash. cbn [oc_construct cls128 cls].
  rewrite (construct_long log2 dbg Hlog (1344 / 8) 0x1F 0x04 (1344 / 8) ltac:(inst) ltac:(inst) ltac:(inst) _ _ aS dS aK dK IS IK l n c Hl Hs).
  now destruct dbg.
Qed.
Theorem cshake256_long log2 dbg l n c chunks : log2_accurate log2 -> (0 <= l)%Z -> long n \/ short n /\ long c ->
  ohash (cls256 log2 dbg) (l, n, c) chunks = if dbg then Throw OutOfRange else Ub OobWrite.
Proof.
  intros Hlog Hl Hs. destruct (uniformS256 dbg) as (aS & dS & IS). destruct (uniformK256 dbg) as (aK & dK & IK). unfold ohash. cbn [oc_construct cls256 cls].
  rewrite (construct_long log2 dbg Hlog (1088 / 8) 0x1F 0x04 (1088 / 8) ltac:(inst) ltac:(inst) ltac:(inst) _ _ aS dS aK dK IS IK l n c Hl Hs).
  now destruct dbg.
Qed.

Theorem cshake128_negative log2 dbg l n c chunks : (l < 0)%Z -> ohash (cls128 log2 dbg) (l, n, c) chunks = Throw LengthError.
Proof. intros Hl. unfold ohash. cbn [oc_construct cls128 cls]. now rewrite construct_negative. Qed.
Theorem cshake256_negative log2 dbg l n c chunks : (l < 0)%Z -> ohash (cls256 log2 dbg) (l, n, c) chunks = Throw LengthError.
Proof. intros Hl. unfold ohash. cbn [oc_construct cls256 cls]. now rewrite construct_negative. Qed.

Theorem cshake128_reset_drops log2 dbg a x y : log2_accurate log2 -> ok_cargs a -> customized a = true -> span_ok x -> span_ok y ->
  exists st, oexec (cls128 log2 dbg) [Construct 0 a; Feed 0 x; Rst 0; Feed 0 y; Fin 0; Vec 0] (fun _ => None) =
    Ok ([OBytes (hashK128 (Z.to_nat (fst (fst a))) y)], st).
Proof.
  intros Hlog Ha Hcu Hx Hy. destruct (uniformS128 dbg) as (aS & dS & IS). destruct (uniformK128 dbg) as (aK & dK & IK).
  apply (reset_drops log2 dbg Hlog (1344 / 8) 0x1F 0x04 (1344 / 8) ltac:(inst) ltac:(inst) ltac:(inst) _ _ aS dS aK dK IS IK); assumption.
Qed.
Theorem cshake256_reset_drops log2 dbg a x y : log2_accurate log2 -> ok_cargs a -> customized a = true -> span_ok x -> span_ok y ->
  exists st, oexec (cls256 log2 dbg) [Construct 0 a; Feed 0 x; Rst 0; Feed 0 y; Fin 0; Vec 0] (fun _ => None) =
    Ok ([OBytes (hashK256 (Z.to_nat (fst (fst a))) y)], st).
Proof.
  intros Hlog Ha Hcu Hx Hy. destruct (uniformS256 dbg) as (aS & dS & IS). destruct (uniformK256 dbg) as (aK & dK & IK).
  apply (reset_drops log2 dbg Hlog (1088 / 8) 0x1F 0x04 (1088 / 8) ltac:(inst) ltac:(inst) ltac:(inst) _ _ aS dS aK dK IS IK); assumption.
Qed.

Theorem cshake128_assign_refuted log2 dbg a a' : log2_accurate log2 -> ok_cargs a -> ok_cargs a' -> customized a' <> customized a ->
  oexec (cls128 log2 dbg) [Construct 0 a'; Construct 1 a; CopyAssign 0 1] (fun _ => None) = Ub NullDeref.
Proof.
  intros Hlog Ha Ha' Hne. destruct (uniformS128 dbg) as (aS & dS & IS). destruct (uniformK128 dbg) as (aK & dK & IK).
  apply (assign_refuted log2 dbg Hlog (1344 / 8) 0x1F 0x04 (1344 / 8) ltac:(inst) ltac:(inst) ltac:(inst) _ _ aS dS aK dK IS IK); assumption.
Qed.
Theorem cshake256_assign_refuted log2 dbg a a' : log2_accurate log2 -> ok_cargs a -> ok_cargs a' -> customized a' <> customized a ->
  oexec (cls256 log2 dbg) [Construct 0 a'; Construct 1 a; CopyAssign 0 1] (fun _ => None) = Ub NullDeref.
Proof.
  intros Hlog Ha Ha' Hne. destruct (uniformS256 dbg) as (aS & dS & IS). destruct (uniformK256 dbg) as (aK & dK & IK).
  apply (assign_refuted log2 dbg Hlog (1088 / 8) 0x1F 0x04 (1088 / 8) ltac:(inst) ltac:(inst) ltac:(inst) _ _ aS dS aK dK IS IK); assumption.
Qed.

Theorem cshake128_moved_refuted log2 dbg a a' : log2_accurate log2 -> ok_cargs a -> ok_cargs a' ->
  oexec (cls128 log2 dbg) [Construct 0 a'; Construct 1 a; MoveConstruct 2 0; CopyAssign 0 1] (fun _ => None) = Ub NullDeref.
Proof.
  intros Hlog Ha Ha'. destruct (uniformS128 dbg) as (aS & dS & IS). destruct (uniformK128 dbg) as (aK & dK & IK).
  apply (assign_moved_refuted log2 dbg Hlog (1344 / 8) 0x1F 0x04 (1344 / 8) ltac:(inst) ltac:(inst) ltac:(inst) _ _ aS dS aK dK IS IK); assumption.
Qed.
Theorem cshake256_moved_refuted log2 dbg a a' : log2_accurate log2 -> ok_cargs a -> ok_cargs a' ->
  oexec (cls256 log2 dbg) [Construct 0 a'; Construct 1 a; MoveConstruct 2 0; CopyAssign 0 1] (fun _ => None) = Ub NullDeref.
Proof.
  intros Hlog Ha Ha'. destruct (uniformS256 dbg) as (aS & dS & IS). destruct (uniformK256 dbg) as (aK & dK & IK).
  apply (assign_moved_refuted log2 dbg Hlog (1088 / 8) 0x1F 0x04 (1088 / 8) ltac:(inst) ltac:(inst) ltac:(inst) _ _ aS dS aK dK IS IK); assumption.
Qed.

(** ** output lengths *)
Lemma hashK128_sponge d m : hashK128 d m = Spec.Keccak.bytes_of (Spec.Keccak.sponge 1344 (8 * d) (Spec.Keccak.bits_of m ++ [false; false])).
Proof. unfold hashK128, Spec.Keccak.keccak. now replace (1600 - 256)%nat with 1344%nat by reflexivity. Qed.
Lemma hashK256_sponge d m : hashK256 d m = Spec.Keccak.bytes_of (Spec.Keccak.sponge 1088 (8 * d) (Spec.Keccak.bits_of m ++ [false; false])).
Proof. unfold hashK256, Spec.Keccak.keccak. now replace (1600 - 512)%nat with 1088%nat by reflexivity. Qed.

Theorem cshake128_length d n c m : length (Sp800185.cshake128 d n c m) = d.
Proof.
  unfold Sp800185.cshake128. destruct (is_nil n && is_nil c).
  - rewrite Shake.shake128_sponge. apply KeccakOut.shake_length, Shake.rate128.
  - fold (hashK128 d (cshake_stream 168 n c m)). rewrite hashK128_sponge. apply KeccakOut.shake_length, Shake.rate128.
Qed.
Theorem cshake256_length d n c m : length (Sp800185.cshake256 d n c m) = d.
Proof.
  unfold Sp800185.cshake256. destruct (is_nil n && is_nil c).
  - rewrite Shake.shake256_sponge. apply KeccakOut.shake_length, Shake.rate256.
  - fold (hashK256 d (cshake_stream 136 n c m)). rewrite hashK256_sponge. apply KeccakOut.shake_length, Shake.rate256.
Qed.
Theorem cshake128_prefix a b n c m : (a <= b)%nat -> firstn a (Sp800185.cshake128 b n c m) = Sp800185.cshake128 a n c m.
Proof.
  intros H. unfold Sp800185.cshake128. destruct (is_nil n && is_nil c).
  - rewrite !Shake.shake128_sponge. apply KeccakOut.shake_prefix; [apply Shake.rate128|exact H].
  - fold (hashK128 b (cshake_stream 168 n c m)) (hashK128 a (cshake_stream 168 n c m)).
    rewrite !hashK128_sponge. apply KeccakOut.shake_prefix; [apply Shake.rate128|exact H].
Qed.
Theorem cshake256_prefix a b n c m : (a <= b)%nat -> firstn a (Sp800185.cshake256 b n c m) = Sp800185.cshake256 a n c m.
Proof.
  intros H. unfold Sp800185.cshake256. destruct (is_nil n && is_nil c).
  - rewrite !Shake.shake256_sponge. apply KeccakOut.shake_prefix; [apply Shake.rate256|exact H].
  - fold (hashK256 b (cshake_stream 136 n c m)) (hashK256 a (cshake_stream 136 n c m)).
    rewrite !hashK256_sponge. apply KeccakOut.shake_prefix; [apply Shake.rate256|exact H].
Qed.

(** ** the encoded input determines name, customization and message *)
Lemma encode_string_inj s s' r r' : bit_length s < 2 ^ 2040 -> bit_length s' < 2 ^ 2040 ->
  encode_string s ++ r = encode_string s' ++ r' -> s = s' /\ r = r'.
Proof.
  intros Hs Hs' E. unfold encode_string in E. rewrite <- !app_assoc in E.
  destruct (left_encode_inj _ _ _ _ Hs Hs' E) as [L E']. apply app_inj_len; [|exact E'].
  unfold bit_length in L. lia.
Qed.

Theorem cshake_stream_inj R n c m n' c' m' : (0 < R <= 200)%nat ->
  bit_length n < 2 ^ 2040 -> bit_length n' < 2 ^ 2040 -> bit_length c < 2 ^ 2040 -> bit_length c' < 2 ^ 2040 ->
  cshake_stream R n c m = cshake_stream R n' c' m' -> n = n' /\ c = c' /\ m = m'.
Proof.
  intros HR Hn Hn' Hc Hc' E. unfold cshake_stream, bytepad in E. rewrite <- !app_assoc in E. apply app_inv_head in E.
  destruct (encode_string_inj _ _ _ _ Hn Hn' E) as [-> E1]. destruct (encode_string_inj _ _ _ _ Hc Hc' E1) as [-> E2].
  apply app_inv_head in E2. auto.
Qed.

(** ** evaluation of the specification through the model, for the concrete cases *)
Lemma via_keccak128 dbg d n c m out : span_ok (cshake_stream 168 n c m) ->
  (if is_nil n && is_nil c then Throw OutOfRange else hash_chunks (K.cls (1344 / 8) 0x04 dbg d) [cshake_stream 168 n c m]) = Ok out ->
  Sp800185.cshake128 d n c m = out.
Proof.
  intros Hs. unfold Sp800185.cshake128. destruct (is_nil n && is_nil c); [discriminate|].
  rewrite chunksK128 by (constructor; [exact Hs|constructor]). cbn [concat]. rewrite app_nil_r. intros H. injection H as H. exact H.
Qed.
Lemma via_keccak256 dbg d n c m out : span_ok (cshake_stream 136 n c m) ->
  (if is_nil n && is_nil c then Throw OutOfRange else hash_chunks (K.cls (1088 / 8) 0x04 dbg d) [cshake_stream 136 n c m]) = Ok out ->
  Sp800185.cshake256 d n c m = out.
Proof.
  intros Hs. unfold Sp800185.cshake256. destruct (is_nil n && is_nil c); [discriminate|].
  rewrite chunksK256 by (constructor; [exact Hs|constructor]). cbn [concat]. rewrite app_nil_r. intros H. injection H as H. exact H.
Qed.

Theorem cshake128_prefix_objects log2 dbg dbg' (a b : Z) n c chunks chunks' :
  log2_accurate log2 -> (0 <= a <= b)%Z -> short n -> short c ->
  Forall span_ok chunks -> Forall span_ok chunks' -> concat chunks = concat chunks' ->
  exists out out', ohash (cls128 log2 dbg) (b, n, c) chunks = Ok out /\
    ohash (cls128 log2 dbg') (a, n, c) chunks' = Ok out' /\
    length out = Z.to_nat b /\ out' = firstn (Z.to_nat a) out.
Proof.
  intros Hlog Hab Hn Hc H H' E. eexists. eexists.
  split; [apply cshake128_hash; auto; lia|]. split; [apply cshake128_hash; auto; lia|].
  split; [apply cshake128_length|]. rewrite <- E. symmetry. apply cshake128_prefix. lia.
Qed.
Theorem cshake256_prefix_objects log2 dbg dbg' (a b : Z) n c chunks chunks' :
  log2_accurate log2 -> (0 <= a <= b)%Z -> short n -> short c ->
  Forall span_ok chunks -> Forall span_ok chunks' -> concat chunks = concat chunks' ->
  exists out out', ohash (cls256 log2 dbg) (b, n, c) chunks = Ok out /\
    ohash (cls256 log2 dbg') (a, n, c) chunks' = Ok out' /\
    length out = Z.to_nat b /\ out' = firstn (Z.to_nat a) out.
Proof.
  intros Hlog Hab Hn Hc H H' E. eexists. eexists.
  split; [apply cshake256_hash; auto; lia|]. split; [apply cshake256_hash; auto; lia|].
  split; [apply cshake256_length|]. rewrite <- E. symmetry. apply cshake256_prefix. lia.
Qed.

Lemma via_bare128 dbg d m out : span_ok m -> hash_chunks (K.cls (1344 / 8) 0x04 dbg d) [m] = Ok out -> hashK128 d m = out.
Proof.
  intros Hs. rewrite chunksK128 by (constructor; [exact Hs|constructor]). cbn [concat]. rewrite app_nil_r. intros H. injection H as H. exact H.
Qed.

Lemma via_bare256 dbg d m out : span_ok m -> hash_chunks (K.cls (1088 / 8) 0x04 dbg d) [m] = Ok out -> hashK256 d m = out.
Proof.
  intros Hs. rewrite chunksK256 by (constructor; [exact Hs|constructor]). cbn [concat]. rewrite app_nil_r. intros H. injection H as H. exact H.
Qed.
