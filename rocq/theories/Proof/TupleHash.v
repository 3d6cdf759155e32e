(** TupleHash. *)
From Coq Require Import List NArith ZArith Arith Bool Lia.
From Verif.Base Require Import Res CWord Double.
From Verif.Spec Require Import Words Client ObjClient Log2 Sp800185 CShakeArgs.
From Verif.Model Require Import Buffer Stream Api ObjApi.
From Verif.Model Require CShake TupleHash.
From Verif.Spec Require Keccak.
From Verif.Model Require Keccak.
From Verif.Proof Require Import Words Streaming Blocks Double Api ObjApi Encode.
From Verif.Proof Require Keccak CShake.
Import ListNotations.
Local Open Scope N_scope.
Module M := Verif.Model.TupleHash.
Module C := Verif.Model.CShake.
Module PC := Verif.Proof.CShake.
Module K := Verif.Model.Keccak.

Section Tuple.
  Variables (log2 : N -> N) (dbg : bool).
  Hypothesis Hlog : log2_accurate log2.
  Variables (R : nat) (sufS sufK P : N).
  Hypothesis HR0 : (0 < R)%nat.
  Hypothesis HR : (R <= 200)%nat.
  Hypothesis HP : P = N.of_nat R.
  Variables (hashS hashK : nat -> list N -> list N).
  Variables (absS doneS absK doneK : nat -> list N -> Buffer * K.St).
  Hypothesis IS : forall d, Implements (K.cls R sufS dbg d) (hashS d) (fun _ => True) (absS d) (doneS d).
  Hypothesis IK : forall d, Implements (K.cls R sufK dbg d) (hashK d) (fun _ => True) (absK d) (doneK d).

  Notation crel := (PC.crel R absS doneS absK doneK).
  Notation chash := (PC.hash R hashS hashK).

  Definition hash (a : Z * list N) (t : list (list N)) : list N :=
    let '(l, c) := a in chash (l, tuple_name, c) (tuple_stream (Z.to_nat l) t).

  Definition trel (a : Z * list N) (t : list (list N)) (b : bool) (o : M.Obj) : Prop :=
    let '(l, c) := a in
    ok_targs a /\ M.m_digestLength o = l /\
    crel (l, tuple_name, c) (if b then tuple_stream (Z.to_nat l) t else flat_map encode_string t) b (M.m_cshake o).

  Lemma name_short : short tuple_name.
  Proof.
    split; [repeat constructor|]. unfold bit_length. apply N.leb_le. reflexivity.
  Qed.

  Lemma cargs l c : ok_targs (l, c) -> ok_cargs (l, tuple_name, c).
  Proof. intros [H1 H2]. split; [lia|]. split; [apply name_short|exact H2]. Qed.

  Lemma construct_ok a : ok_targs a -> exists o, oc_construct (M.cls log2 R sufS sufK P dbg) a = Ok o /\ trel a [] false o.
  Proof.
    destruct a as [l c]. intros Ha.
    destruct (PC.construct_ok log2 dbg Hlog R sufS sufK P HR0 HR HP _ _ absS doneS absK doneK IS IK l tuple_name c (cargs l c Ha)) as (o & E & Ro).
    cbn [M.cls oc_construct]. unfold M.construct. change M.name with tuple_name. rewrite E, bind_ok.
    eexists. split; [reflexivity|]. cbn [trel M.m_digestLength M.m_cshake flat_map]. auto.
  Qed.

  Lemma add_ok l c m b0 o x : M.m_digestLength o = l -> b0 = false -> crel (l, tuple_name, c) m b0 (M.m_cshake o) -> span_ok x ->
    exists o', M.addDataImpl R sufS sufK dbg x o = Ok o' /\ M.m_digestLength o' = l /\ crel (l, tuple_name, c) (m ++ x) false (M.m_cshake o').
  Proof.
    intros Hl -> Hc Hx. destruct (PC.add_ok dbg R sufS sufK P HR0 HR HP _ _ absS doneS absK doneK IS IK _ m x _ Hc Hx) as (o' & E & Ro).
    unfold M.addDataImpl. rewrite E, bind_ok. eexists. split; [reflexivity|]. auto.
  Qed.

  Lemma mul8 s : short s -> umul 64 (N.of_nat (length s)) 8 = bit_length s.
  Proof.
    intros Hs. pose proof (PC.short_len s Hs) as Hsl. unfold umul. rewrite trunc_id; [unfold bit_length; lia|]. unfold bnd.
    change (2 ^ 53) with 9007199254740992 in Hsl. change (2 ^ 64) with 18446744073709551616. lia.
  Qed.

  Lemma next_ok a t o d : trel a t false o -> short d -> exists o', M.nextData log2 R sufS sufK dbg d o = Ok o' /\ trel a (t ++ [d]) false o'.
  Proof.
    destruct a as [l c]. intros (Ha & Hl & Hc) Hd. unfold M.nextData. rewrite mul8 by exact Hd.
    rewrite (leftEncode_ok log2 dbg Hlog _ (proj2 Hd)), bind_ok, canon_span.
    pose proof (left_encode_length _ (max_2040 _ (proj2 Hd))) as LL. pose proof (left_encode_bytes _ (max_2040 _ (proj2 Hd))) as LB.
    destruct (add_ok l c _ false o (left_encode (bit_length d)) Hl eq_refl Hc) as (o1 & E1 & L1 & R1); [apply PC.small_span; [exact LB|lia]|].
    rewrite E1, bind_ok. destruct (add_ok l c _ false o1 d L1 eq_refl R1 (PC.short_span d Hd)) as (o2 & E2 & L2 & R2).
    exists o2. split; [exact E2|]. split; [exact Ha|]. split; [exact L2|]. rewrite flat_map_app. cbn [flat_map].
    rewrite app_nil_r. unfold encode_string at 2. rewrite app_assoc. exact R2.
  Qed.

  Lemma bits_ok l : (0 <= l < 2 ^ 28)%Z -> M.imul l 8 = Ok (l * 8)%Z /\ M.to_u64 (l * 8) = 8 * N.of_nat (Z.to_nat l) /\
    8 * N.of_nat (Z.to_nat l) <= 2 ^ 56 - 2 ^ 8.
  Proof.
    intros H. change (2 ^ 28)%Z with 268435456%Z in H. split.
    - unfold M.imul. change (- 2 ^ 31)%Z with (-2147483648)%Z. change (2 ^ 31)%Z with 2147483648%Z.
      destruct (Z.leb_spec (-2147483648) (l * 8)), (Z.ltb_spec (l * 8) 2147483648); try lia. reflexivity.
    - unfold M.to_u64. rewrite Z.mod_small by (change (2 ^ 64)%Z with 18446744073709551616%Z; lia).
      change (2 ^ 56 - 2 ^ 8) with 72057594037927680. lia.
  Qed.

  Lemma fin_ok a t o : trel a t false o -> exists o', M.finalize log2 R sufS sufK dbg o = Ok o' /\ trel a t true o'.
  Proof.
    destruct a as [l c]. intros (Ha & Hl & Hc). unfold M.finalize. rewrite Hl. destruct (bits_ok l (proj1 Ha)) as (E1 & E2 & E3).
    rewrite E1, bind_ok, E2, (rightEncode_ok log2 dbg Hlog _ E3), bind_ok, canon_span.
    set (v := 8 * N.of_nat (Z.to_nat l)) in *.
    assert (length (right_encode v) <= 256)%nat as LL.
    { destruct (byte_count_spec v (max_2040 _ E3)) as (B & _). unfold right_encode. rewrite app_length, be_bytes_length. cbn [length]. lia. }
    destruct (add_ok l c _ false o (right_encode v) Hl eq_refl Hc) as (o1 & F1 & L1 & R1).
    { apply PC.small_span; [apply right_encode_bytes, max_2040, E3|exact LL]. }
    rewrite F1, bind_ok.
    destruct (PC.fin_ok dbg R sufS sufK P HR0 HR HP _ _ absS doneS absK doneK IS IK _ _ _ R1) as (o2 & F2 & R2). rewrite F2, bind_ok.
    eexists. split; [reflexivity|]. split; [exact Ha|]. split; [exact L1|]. exact R2.
  Qed.

  Theorem realizes : Realizes (M.cls log2 R sufS sufK P dbg) hash ok_targs short no_reset live_assign trel.
  Proof.
    constructor; cbn [M.cls Args OObj oc_feed oc_finalize oc_reset oc_vector oc_copy oc_move oc_assign oc_massign].
    - exact construct_ok.
    - intros a t x d. apply next_ok.
    - intros a t x. apply fin_ok.
    - intros a t b x _ [].
    - intros [l c] t x (_ & _ & Hx). apply (PC.vec_ok dbg R sufS sufK P HR0 HR HP _ _ absS doneS absK doneK IS IK _ _ _ Hx).
    - intros [l c] t b x (Ha & Hl & Hx). destruct (PC.copy_ok R absS doneS absK doneK _ _ _ _ Hx) as (y & E & Hy).
      unfold M.copy_construct. rewrite E, bind_ok. eexists. split; [reflexivity|]. split; [exact Ha|]. split; [exact Hl|exact Hy].
    - intros [l c] t b x (Ha & Hl & Hx). unfold M.move_construct, C.move_construct.
      pose proof (PC.swap_ok R absS doneS absK doneK (C.mkObj false None None) _ _ _ _ Hx) as Hy.
      destruct (C.swap_selected _ _) as [y y']. split; [exact Ha|]. split; [exact Hl|exact Hy].
    - intros sl x [l c] t b y (Ha & Hl & Hy) Hm Hsl. destruct sl as [| |[[l' c'] t' b']]; cbn [live_assign] in Hm; try contradiction.
      cbn [o_args o_items o_done] in Hsl. destruct Hsl as (_ & _ & Hx).
      destruct (PC.assign_ok R absS doneS absK doneK _ _ _ _ _ _ _ _ Hy Hx) as (z & E & Hz); [reflexivity|].
      unfold M.copy_assign. rewrite E, bind_ok. eexists. split; [reflexivity|]. split; [exact Ha|]. split; [exact Hl|exact Hz].
    - intros x [l c] t b y (Ha & Hl & Hy). unfold M.move_assign, C.move_assign.
      pose proof (PC.swap_ok R absS doneS absK doneK (M.m_cshake x) _ _ _ _ Hy) as Hz.
      destruct (C.swap_selected _ _) as [z z']. split; [exact Ha|]. split; [exact Hl|exact Hz].
    - intros a H. exact H.
  Qed.

  Lemma construct_crel l c : ok_cargs (l, tuple_name, c) ->
    exists o, oc_construct (M.cls log2 R sufS sufK P dbg) (l, c) = Ok o /\ M.m_digestLength o = l /\
      crel (l, tuple_name, c) [] false (M.m_cshake o) /\ PC.other_null (M.m_cshake o).
  Proof.
    intros Ha. destruct (PC.construct_full log2 dbg Hlog R sufS sufK P HR0 HR HP _ _ absS doneS absK doneK IS IK l tuple_name c Ha) as (o & E & Ro & Rn).
    cbn [M.cls oc_construct]. unfold M.construct. change M.name with tuple_name. rewrite E, bind_ok. eexists. split; [reflexivity|]. auto.
  Qed.

  Lemma construct_long l c : (0 <= l)%Z -> long c ->
    oc_construct (M.cls log2 R sufS sufK P dbg) (l, c) = if dbg then Throw OutOfRange else Ub OobWrite.
  Proof.
    intros Hl Hc. cbn [M.cls oc_construct]. unfold M.construct. change M.name with tuple_name.
    rewrite (PC.construct_long log2 dbg Hlog R sufS sufK P HR0 HR HP _ _ absS doneS absK doneK IS IK l tuple_name c Hl (or_intror (conj name_short Hc))).
    now destruct dbg.
  Qed.

  Lemma construct_negative l c : (l < 0)%Z -> oc_construct (M.cls log2 R sufS sufK P dbg) (l, c) = Throw LengthError.
  Proof using.
    intros Hl. cbn [M.cls oc_construct]. unfold M.construct. now rewrite PC.construct_negative.
  Qed.

  Lemma next_long o d : long d -> M.nextData log2 R sufS sufK dbg d o = if dbg then Throw OutOfRange else Ub OobWrite.
  Proof.
    intros [_ Hs]. unfold M.nextData.
    assert (umul 64 (N.of_nat (length d)) 8 = bit_length d) as ->.
    { unfold umul. rewrite trunc_id; [unfold bit_length; lia|]. unfold bnd, bit_length in *.
      change (2 ^ 64) with 18446744073709551616. change (2 ^ 63) with 9223372036854775808 in Hs. lia. }
    rewrite (leftEncode_overflow log2 dbg Hlog _ Hs). now destruct dbg.
  Qed.

  (** the conditions on the length are only used by finalize *)
  Definition grel (l : Z) (c : list N) (t : list (list N)) (o : M.Obj) : Prop :=
    M.m_digestLength o = l /\ crel (l, tuple_name, c) (flat_map encode_string t) false (M.m_cshake o).

  Lemma next_grel l c t o d : grel l c t o -> short d ->
    exists o', M.nextData log2 R sufS sufK dbg d o = Ok o' /\ grel l c (t ++ [d]) o'.
  Proof.
    intros (Hl & Hc) Hd. unfold M.nextData. rewrite mul8 by exact Hd.
    rewrite (leftEncode_ok log2 dbg Hlog _ (proj2 Hd)), bind_ok, canon_span.
    pose proof (left_encode_length _ (max_2040 _ (proj2 Hd))) as LL. pose proof (left_encode_bytes _ (max_2040 _ (proj2 Hd))) as LB.
    destruct (add_ok l c _ false o (left_encode (bit_length d)) Hl eq_refl Hc) as (o1 & E1 & L1 & R1); [apply PC.small_span; [exact LB|lia]|].
    rewrite E1, bind_ok. destruct (add_ok l c _ false o1 d L1 eq_refl R1 (PC.short_span d Hd)) as (o2 & E2 & L2 & R2).
    exists o2. split; [exact E2|]. split; [exact L2|]. rewrite flat_map_app. cbn [flat_map].
    rewrite app_nil_r. unfold encode_string at 2. rewrite app_assoc. exact R2.
  Qed.

  Lemma feed_grel l c items : Forall short items -> forall t o, grel l c t o ->
    exists o', foldM (M.nextData log2 R sufS sufK dbg) items o = Ok o' /\ grel l c (t ++ items) o'.
  Proof.
    induction 1 as [|d items Hd _ IH]; intros t o Ho; cbn [foldM].
    - rewrite app_nil_r. eauto.
    - destruct (next_grel l c t o d Ho Hd) as (o1 & E1 & R1). rewrite E1, bind_ok.
      destruct (IH _ o1 R1) as (o2 & E2 & R2). rewrite <- app_assoc in R2. eauto.
  Qed.

  Theorem too_long l c items : (2 ^ 28 <= l)%Z -> short c -> Forall short items ->
    ohash (M.cls log2 R sufS sufK P dbg) (l, c) items = Ub SignedOverflow.
  Proof.
    intros Hl Hc Hi. assert (0 <= l)%Z as Hl0 by (change (2 ^ 28)%Z with 268435456%Z in Hl; lia).
    destruct (construct_crel l c (conj Hl0 (conj name_short Hc))) as (o & E & Lo & Ro & _).
    unfold ohash. rewrite E, bind_ok. cbn [M.cls oc_feed oc_finalize OObj].
    destruct (feed_grel l c items Hi [] o (conj Lo Ro)) as (o' & E' & Lo' & _). rewrite E', bind_ok.
    unfold M.finalize. rewrite Lo'. unfold M.imul.
    destruct (Z.leb_spec (- 2 ^ 31) (l * 8)), (Z.ltb_spec (l * 8) (2 ^ 31)); try reflexivity.
    exfalso. change (2 ^ 28)%Z with 268435456%Z in Hl. change (2 ^ 31)%Z with 2147483648%Z in *. lia.
  Qed.

  (** ** reset() forgets the prefix with the name and the customization *)
  Notation C := (M.cls log2 R sufS sufK P dbg).

  Theorem reset_drops l c x y : ok_targs (l, c) -> short x -> short y ->
    exists st, oexec C [Construct 0 (l, c); Feed 0 x; Rst 0; Feed 0 y; Fin 0; Vec 0] (fun _ => None) =
      Ok ([OBytes (hashK (Z.to_nat l) (tuple_stream (Z.to_nat l) [y]))], st).
  Proof.
    intros Ha Hx Hy. destruct (construct_crel l c (cargs l c Ha)) as (o1 & E1 & L1 & R1 & _).
    destruct (next_grel l c [] o1 x (conj L1 R1) Hx) as (o2 & E2 & L2 & R2).
    destruct (PC.reset_raw dbg R sufS sufK P HR0 HR HP _ _ absS doneS absK doneK IS IK _ _ _ _ R2 eq_refl) as (o3 & E3 & R3). cbn [fst] in R3.
    pose proof (left_encode_length _ (max_2040 _ (proj2 Hy))) as LL. pose proof (left_encode_bytes _ (max_2040 _ (proj2 Hy))) as LB.
    destruct (PC.raw_add dbg R sufS sufK _ absK doneK IK _ _ o3 (left_encode (bit_length y)) R3) as (o4 & E4 & R4);
      [apply PC.small_span; [exact LB|lia]|].
    destruct (PC.raw_add dbg R sufS sufK _ absK doneK IK _ _ o4 y R4 (PC.short_span y Hy)) as (o5 & E5 & R5).
    destruct (bits_ok l (proj1 Ha)) as (F1 & F2 & F3).
    assert (length (right_encode (8 * N.of_nat (Z.to_nat l))) <= 256)%nat as LR.
    { destruct (byte_count_spec _ (max_2040 _ F3)) as (B & _). unfold right_encode. rewrite app_length, be_bytes_length. cbn [length]. lia. }
    destruct (PC.raw_add dbg R sufS sufK _ absK doneK IK _ _ o5 (right_encode (8 * N.of_nat (Z.to_nat l))) R5) as (o6 & E6 & R6).
    { apply PC.small_span; [apply right_encode_bytes, max_2040, F3|exact LR]. }
    destruct (PC.raw_fin dbg R sufS sufK _ absK doneK IK _ _ o6 R6) as (o7 & E7 & R7).
    pose proof (PC.raw_vec dbg R sufK _ absK doneK IK _ _ o7 R7) as E8.
    assert (M.reset sufS sufK o2 = Ok (M.mkObj o3 l)) as G3 by (unfold M.reset; now rewrite E3, bind_ok, L2).
    assert (M.nextData log2 R sufS sufK dbg y (M.mkObj o3 l) = Ok (M.mkObj o5 l)) as G5.
    { unfold M.nextData. rewrite mul8 by exact Hy. rewrite (leftEncode_ok log2 dbg Hlog _ (proj2 Hy)), bind_ok, canon_span.
      unfold M.addDataImpl. cbn [M.m_cshake M.m_digestLength]. rewrite E4, !bind_ok. cbn [M.m_cshake M.m_digestLength]. now rewrite E5, bind_ok. }
    assert (M.finalize log2 R sufS sufK dbg (M.mkObj o5 l) = Ok (M.mkObj o7 l)) as G7.
    { unfold M.finalize. cbn [M.m_cshake M.m_digestLength]. rewrite F1, bind_ok, F2, (rightEncode_ok log2 dbg Hlog _ F3), bind_ok, canon_span.
      unfold M.addDataImpl. cbn [M.m_cshake M.m_digestLength]. rewrite E6, !bind_ok. cbn [M.m_cshake M.m_digestLength]. now rewrite E7, bind_ok. }
    cbn [app] in E8. eexists.
    cbn [oexec exec_ocmd]. rewrite E1, !bind_ok. cbn [fst snd].
    unfold update at 1, sget at 1, sput at 1. cbn [Nat.eqb]. rewrite bind_ok. cbn [M.cls oc_feed]. rewrite E2, !bind_ok. cbn [fst snd].
    unfold update at 1, sget at 1, sput at 1. cbn [Nat.eqb]. rewrite bind_ok. cbn [M.cls oc_reset]. rewrite G3, !bind_ok. cbn [fst snd].
    unfold update at 1, sget at 1, sput at 1. cbn [Nat.eqb]. rewrite bind_ok. cbn [M.cls oc_feed]. rewrite G5, !bind_ok. cbn [fst snd].
    unfold update at 1, sget at 1, sput at 1. cbn [Nat.eqb]. rewrite bind_ok. cbn [M.cls oc_finalize]. rewrite G7, !bind_ok. cbn [fst snd].
    unfold observe, sget at 1, sput at 1. cbn [Nat.eqb]. rewrite bind_ok. cbn [M.cls oc_vector]. unfold M.toVector. cbn [M.m_cshake].
    rewrite E8, !bind_ok. cbn [fst snd]. unfold tuple_stream, encode_string. cbn [flat_map]. rewrite app_nil_r. reflexivity.
  Qed.

  Theorem assign_moved_refuted l c l' c' : ok_targs (l, c) -> ok_targs (l', c') ->
    oexec C [Construct 0 (l', c'); Construct 1 (l, c); MoveConstruct 2 0; CopyAssign 0 1] (fun _ => None) = Ub NullDeref.
  Proof.
    intros Ha Ha'. destruct (construct_crel l c (cargs l c Ha)) as (o & E & _ & Ro & _).
    destruct (construct_crel l' c' (cargs l' c' Ha')) as (t & E' & _ & Rt & Ht).
    pose proof (PC.assign_moved R absS doneS absK doneK (M.m_cshake t) _ _ _ _ _ _ (M.m_cshake o) Ro Rt Ht) as Hn.
    cbn [oexec exec_ocmd]. rewrite E', !bind_ok, E, !bind_ok. cbn [fst snd].
    unfold sget at 1, sput at 1 2. cbn [Nat.eqb]. rewrite bind_ok. cbn [M.cls oc_move]. unfold M.move_construct.
    destruct (C.move_construct (M.m_cshake t)) as [u v]. cbn [snd] in Hn.
    rewrite !bind_ok. cbn [fst snd]. unfold sget, sput. cbn [Nat.eqb]. rewrite !bind_ok. cbn [M.cls oc_assign].
    unfold M.copy_assign. cbn [M.m_cshake]. now rewrite Hn.
  Qed.
End Tuple.

Lemma hash128 R : R = 168%nat -> forall a t, hash R Spec.Keccak.shake128 PC.hashK128 a t = tuplehash128 a t.
Proof. intros -> [l c] t. reflexivity. Qed.
Lemma hash256 R : R = 136%nat -> forall a t, hash R Spec.Keccak.shake256 PC.hashK256 a t = tuplehash256 a t.
Proof. intros -> [l c] t. reflexivity. Qed.

Theorem tuplehash128_correct log2 dbg : log2_accurate log2 ->
  ObjCorrect (M.cls128 log2 dbg) tuplehash128 ok_targs short no_reset live_assign.
Proof.
  intros Hlog. destruct (PC.uniformS128 dbg) as (aS & dS & IS). destruct (PC.uniformK128 dbg) as (aK & dK & IK).
  exists (trel (1344 / 8) aS dS aK dK).
  apply (PC.realizes_ext (M.cls128 log2 dbg) (hash (1344 / 8) Spec.Keccak.shake128 PC.hashK128)); [intros a l; apply (hash128 _ PC.R128)|].
  apply realizes; auto; rewrite PC.R128; try reflexivity; lia.
Qed.
Theorem tuplehash256_correct log2 dbg : log2_accurate log2 ->
  ObjCorrect (M.cls256 log2 dbg) tuplehash256 ok_targs short no_reset live_assign.
Proof.
  intros Hlog. destruct (PC.uniformS256 dbg) as (aS & dS & IS). destruct (PC.uniformK256 dbg) as (aK & dK & IK).
  exists (trel (1088 / 8) aS dS aK dK).
  apply (PC.realizes_ext (M.cls256 log2 dbg) (hash (1088 / 8) Spec.Keccak.shake256 PC.hashK256)); [intros a l; apply (hash256 _ PC.R256)|].
  apply realizes; auto; rewrite PC.R256; try reflexivity; lia.
Qed.

Ltac inst := first [assumption | (rewrite PC.R128 || rewrite PC.R256); first [reflexivity | lia]].

Theorem tuplehash128_hash log2 dbg l c t : log2_accurate log2 -> (0 <= l < 2 ^ 28)%Z -> short c -> Forall short t ->
  ohash (M.cls128 log2 dbg) (l, c) t = Ok (Sp800185.tuplehash128 (Z.to_nat l) c t).
Proof. intros Hlog Hl Hc H. apply (objcorrect_hash _ _ _ _ _ _ (tuplehash128_correct log2 dbg Hlog) (l, c)); [split; auto|exact H]. Qed.
Theorem tuplehash256_hash log2 dbg l c t : log2_accurate log2 -> (0 <= l < 2 ^ 28)%Z -> short c -> Forall short t ->
  ohash (M.cls256 log2 dbg) (l, c) t = Ok (Sp800185.tuplehash256 (Z.to_nat l) c t).
Proof. intros Hlog Hl Hc H. apply (objcorrect_hash _ _ _ _ _ _ (tuplehash256_correct log2 dbg Hlog) (l, c)); [split; auto|exact H]. Qed.

Theorem tuplehash128_negative log2 dbg l c t : (l < 0)%Z -> ohash (M.cls128 log2 dbg) (l, c) t = Throw LengthError.
Proof. intros Hl. unfold ohash, M.cls128. now rewrite construct_negative. Qed.
Theorem tuplehash256_negative log2 dbg l c t : (l < 0)%Z -> ohash (M.cls256 log2 dbg) (l, c) t = Throw LengthError.
Proof. intros Hl. unfold ohash, M.cls256. now rewrite construct_negative. Qed.

Theorem tuplehash128_too_long log2 dbg l c t : log2_accurate log2 -> (2 ^ 28 <= l)%Z -> short c -> Forall short t ->
  ohash (M.cls128 log2 dbg) (l, c) t = Ub SignedOverflow.
Proof. intros Hlog Hl Hc Ht. destruct (PC.uniformS128 dbg) as (aS & dS & IS). destruct (PC.uniformK128 dbg) as (aK & dK & IK). apply (too_long log2 dbg Hlog (1344 / 8) 0x1F 0x04 (1344 / 8) ltac:(inst) ltac:(inst) ltac:(inst) _ _ aS dS aK dK IS IK); assumption. Qed.
Theorem tuplehash128_long log2 dbg l c t : log2_accurate log2 -> (0 <= l)%Z -> long c ->
  ohash (M.cls128 log2 dbg) (l, c) t = if dbg then Throw OutOfRange else Ub OobWrite.
Proof.
  intros Hlog Hl Hc. destruct (PC.uniformS128 dbg) as (aS & dS & IS). destruct (PC.uniformK128 dbg) as (aK & dK & IK). unfold ohash, M.cls128.
  rewrite (construct_long log2 dbg Hlog (1344 / 8) 0x1F 0x04 (1344 / 8) ltac:(inst) ltac:(inst) ltac:(inst) _ _ aS dS aK dK IS IK l c Hl Hc). now destruct dbg.
Qed.
Theorem tuplehash128_reset_drops log2 dbg l c x y : log2_accurate log2 -> ok_targs (l, c) -> short x -> short y ->
  exists st, oexec (M.cls128 log2 dbg) [Construct 0 (l, c); Feed 0 x; Rst 0; Feed 0 y; Fin 0; Vec 0] (fun _ => None) =
    Ok ([OBytes (PC.hashK128 (Z.to_nat l) (tuple_stream (Z.to_nat l) [y]))], st).
Proof. intros Hlog Ha Hx Hy. destruct (PC.uniformS128 dbg) as (aS & dS & IS). destruct (PC.uniformK128 dbg) as (aK & dK & IK). apply (reset_drops log2 dbg Hlog (1344 / 8) 0x1F 0x04 (1344 / 8) ltac:(inst) ltac:(inst) ltac:(inst) _ _ aS dS aK dK IS IK); assumption. Qed.
Theorem tuplehash128_moved_refuted log2 dbg a a' : log2_accurate log2 -> ok_targs a -> ok_targs a' ->
  oexec (M.cls128 log2 dbg) [Construct 0 a'; Construct 1 a; MoveConstruct 2 0; CopyAssign 0 1] (fun _ => None) = Ub NullDeref.
Proof. intros Hlog Ha Ha'. destruct (PC.uniformS128 dbg) as (aS & dS & IS). destruct (PC.uniformK128 dbg) as (aK & dK & IK). destruct a, a'. apply (assign_moved_refuted log2 dbg Hlog (1344 / 8) 0x1F 0x04 (1344 / 8) ltac:(inst) ltac:(inst) ltac:(inst) _ _ aS dS aK dK IS IK); assumption. Qed.

Theorem tuplehash256_too_long log2 dbg l c t : log2_accurate log2 -> (2 ^ 28 <= l)%Z -> short c -> Forall short t ->
  ohash (M.cls256 log2 dbg) (l, c) t = Ub SignedOverflow.
Proof. intros Hlog Hl Hc Ht. destruct (PC.uniformS256 dbg) as (aS & dS & IS). destruct (PC.uniformK256 dbg) as (aK & dK & IK). apply (too_long log2 dbg Hlog (1088 / 8) 0x1F 0x04 (1088 / 8) ltac:(inst) ltac:(inst) ltac:(inst) _ _ aS dS aK dK IS IK); assumption. Qed.
Theorem tuplehash256_long log2 dbg l c t : log2_accurate log2 -> (0 <= l)%Z -> long c ->
  ohash (M.cls256 log2 dbg) (l, c) t = if dbg then Throw OutOfRange else Ub OobWrite.
Proof.
  intros Hlog Hl Hc. destruct (PC.uniformS256 dbg) as (aS & dS & IS). destruct (PC.uniformK256 dbg) as (aK & dK & IK). unfold ohash, M.cls256.
  rewrite (construct_long log2 dbg Hlog (1088 / 8) 0x1F 0x04 (1088 / 8) ltac:(inst) ltac:(inst) ltac:(inst) _ _ aS dS aK dK IS IK l c Hl Hc). now destruct dbg.
Qed.
Theorem tuplehash256_reset_drops log2 dbg l c x y : log2_accurate log2 -> ok_targs (l, c) -> short x -> short y ->
  exists st, oexec (M.cls256 log2 dbg) [Construct 0 (l, c); Feed 0 x; Rst 0; Feed 0 y; Fin 0; Vec 0] (fun _ => None) =
    Ok ([OBytes (PC.hashK256 (Z.to_nat l) (tuple_stream (Z.to_nat l) [y]))], st).
Proof. intros Hlog Ha Hx Hy. destruct (PC.uniformS256 dbg) as (aS & dS & IS). destruct (PC.uniformK256 dbg) as (aK & dK & IK). apply (reset_drops log2 dbg Hlog (1088 / 8) 0x1F 0x04 (1088 / 8) ltac:(inst) ltac:(inst) ltac:(inst) _ _ aS dS aK dK IS IK); assumption. Qed.
Theorem tuplehash256_moved_refuted log2 dbg a a' : log2_accurate log2 -> ok_targs a -> ok_targs a' ->
  oexec (M.cls256 log2 dbg) [Construct 0 a'; Construct 1 a; MoveConstruct 2 0; CopyAssign 0 1] (fun _ => None) = Ub NullDeref.
Proof. intros Hlog Ha Ha'. destruct (PC.uniformS256 dbg) as (aS & dS & IS). destruct (PC.uniformK256 dbg) as (aK & dK & IK). destruct a, a'. apply (assign_moved_refuted log2 dbg Hlog (1088 / 8) 0x1F 0x04 (1088 / 8) ltac:(inst) ltac:(inst) ltac:(inst) _ _ aS dS aK dK IS IK); assumption. Qed.

(** ** the encoded input determines the tuple, the output length and the customization *)
Lemma encode_nonempty s : bit_length s < 2 ^ 2040 -> encode_string s <> [].
Proof. intros H E. unfold encode_string in E. apply app_eq_nil in E as [E _]. pose proof (left_encode_length _ H) as L. rewrite E in L. cbn in L. lia. Qed.

Lemma tuple_inj t : Forall (fun s => bit_length s < 2 ^ 2040) t -> forall t', Forall (fun s => bit_length s < 2 ^ 2040) t' ->
  flat_map encode_string t = flat_map encode_string t' -> t = t'.
Proof.
  induction 1 as [|s t Hs _ IH]; intros t' H' E; inversion H' as [|s' r' Hs' Hr' ET]; subst t'; cbn [flat_map] in E; [reflexivity| | |].
  - symmetry in E. apply app_eq_nil in E as [E _]. now apply encode_nonempty in E.
  - apply app_eq_nil in E as [E _]. now apply encode_nonempty in E.
  - destruct (PC.encode_string_inj _ _ _ _ Hs Hs' E) as [-> E']. f_equal. now apply IH.
Qed.

Theorem tuple_stream_inj d t d' t' :
  8 * N.of_nat d < 2 ^ 2040 -> 8 * N.of_nat d' < 2 ^ 2040 ->
  Forall (fun s => bit_length s < 2 ^ 2040) t -> Forall (fun s => bit_length s < 2 ^ 2040) t' ->
  tuple_stream d t = tuple_stream d' t' -> d = d' /\ t = t'.
Proof.
  intros Hd Hd' Ht Ht' E. unfold tuple_stream in E. destruct (right_encode_inj _ _ _ _ Hd Hd' E) as [L E'].
  split; [lia|]. now apply tuple_inj.
Qed.

Lemma name_2040 : bit_length tuple_name < 2 ^ 2040.
Proof. reflexivity. Qed.

Lemma bits_2040 d : N.of_nat d < 2 ^ 61 -> 8 * N.of_nat d < 2 ^ 2040.
Proof.
  intros H. apply u64_2040. change (2 ^ 61) with 2305843009213693952 in H. change (2 ^ 64) with 18446744073709551616. lia.
Qed.

Theorem stream_inj R : (0 < R <= 200)%nat -> forall (d d' : nat) custom custom' tuple tuple',
  N.of_nat d < 2 ^ 61 -> N.of_nat d' < 2 ^ 61 ->
  Forall (fun s => bit_length s < 2 ^ 2040) (custom :: tuple) ->
  Forall (fun s => bit_length s < 2 ^ 2040) (custom' :: tuple') ->
  cshake_stream R tuple_name custom (tuple_stream d tuple) = cshake_stream R tuple_name custom' (tuple_stream d' tuple') ->
  d = d' /\ custom = custom' /\ tuple = tuple'.
Proof.
  intros HR d d' c c' t t' Hd Hd' H H' E. inversion_clear H as [|x1 x2 Hc Ht]. inversion_clear H' as [|x1 x2 Hc' Ht'].
  destruct (PC.cshake_stream_inj R _ _ _ _ _ _ HR name_2040 name_2040 Hc Hc' E) as (_ & -> & E').
  destruct (tuple_stream_inj d t d' t' (bits_2040 d Hd) (bits_2040 d' Hd') Ht Ht' E') as [-> ->]. auto.
Qed.

Theorem regroup R : (0 < R <= 200)%nat -> forall (d : nat) custom before x y z after, N.of_nat d < 2 ^ 61 -> y <> [] ->
  Forall (fun s => bit_length s < 2 ^ 2040) (custom :: before ++ [x ++ y; z; x; y ++ z] ++ after) ->
  cshake_stream R tuple_name custom (tuple_stream d (before ++ [x ++ y; z] ++ after)) <>
  cshake_stream R tuple_name custom (tuple_stream d (before ++ [x; y ++ z] ++ after)).
Proof.
  intros HR d c before x y z after Hd Hy H E. inversion_clear H as [|x1 x2 Hc Ht]. apply Forall_app in Ht as [Hb Ht].
  cbn [app] in Ht. inversion_clear Ht as [|y1 y2 H1 Hm1]. inversion_clear Hm1 as [|y1 y2 H2 Hm2]. inversion_clear Hm2 as [|y1 y2 H3 Hm3]. inversion_clear Hm3 as [|y1 y2 H4 Ha].
  apply stream_inj in E; try assumption.
  - destruct E as (_ & _ & E). apply app_inv_head in E. cbn [app] in E. injection E as E _.
    apply (f_equal (@length N)) in E. rewrite app_length in E. destruct y; [contradiction|cbn in E; lia].
  - constructor; [exact Hc|]. apply Forall_app. split; [exact Hb|]. cbn [app]. auto.
  - constructor; [exact Hc|]. apply Forall_app. split; [exact Hb|]. cbn [app]. auto.
Qed.

Lemma short_2040 s : short s -> bit_length s < 2 ^ 2040.
Proof. intros [_ H]. now apply max_2040. Qed.
Lemma shorts_2040 l : Forall short l -> Forall (fun s => bit_length s < 2 ^ 2040) l.
Proof. intros H. eapply Forall_impl; [|exact H]. intros s. apply short_2040. Qed.
Lemma length_61 l : (0 <= l < 2 ^ 28)%Z -> N.of_nat (Z.to_nat l) < 2 ^ 61.
Proof. intros H. change (2 ^ 28)%Z with 268435456%Z in H. change (2 ^ 61) with 2305843009213693952. lia. Qed.

Theorem tuplehash128_collision log2 dbg dbg' l custom custom' tuple tuple' out :
  log2_accurate log2 -> (0 <= l < 2 ^ 28)%Z -> short custom -> short custom' -> Forall short tuple -> Forall short tuple' ->
  (custom, tuple) <> (custom', tuple') ->
  ohash (M.cls128 log2 dbg) (l, custom) tuple = Ok out -> ohash (M.cls128 log2 dbg') (l, custom') tuple' = Ok out ->
  exists s s', s <> s' /\ PC.hashK128 (Z.to_nat l) s = out /\ PC.hashK128 (Z.to_nat l) s' = out.
Proof.
  intros Hlog Hl Hc Hc' Ht Ht' Hne H H'. rewrite tuplehash128_hash in H by assumption. rewrite tuplehash128_hash in H' by assumption.
  injection H as H. injection H' as H'.
  exists (cshake_stream 168 tuple_name custom (tuple_stream (Z.to_nat l) tuple)), (cshake_stream 168 tuple_name custom' (tuple_stream (Z.to_nat l) tuple')).
  split; [|split; [exact H|exact H']]. intros E. apply Hne.
  apply (stream_inj 168) in E; [|lia|now apply length_61|now apply length_61|apply shorts_2040; auto|apply shorts_2040; auto].
  destruct E as (_ & -> & ->). reflexivity.
Qed.

Theorem tuplehash256_collision log2 dbg dbg' l custom custom' tuple tuple' out :
  log2_accurate log2 -> (0 <= l < 2 ^ 28)%Z -> short custom -> short custom' -> Forall short tuple -> Forall short tuple' ->
  (custom, tuple) <> (custom', tuple') ->
  ohash (M.cls256 log2 dbg) (l, custom) tuple = Ok out -> ohash (M.cls256 log2 dbg') (l, custom') tuple' = Ok out ->
  exists s s', s <> s' /\ PC.hashK256 (Z.to_nat l) s = out /\ PC.hashK256 (Z.to_nat l) s' = out.
Proof.
  intros Hlog Hl Hc Hc' Ht Ht' Hne H H'. rewrite tuplehash256_hash in H by assumption. rewrite tuplehash256_hash in H' by assumption.
  injection H as H. injection H' as H'.
  exists (cshake_stream 136 tuple_name custom (tuple_stream (Z.to_nat l) tuple)), (cshake_stream 136 tuple_name custom' (tuple_stream (Z.to_nat l) tuple')).
  split; [|split; [exact H|exact H']]. intros E. apply Hne.
  apply (stream_inj 136) in E; [|lia|now apply length_61|now apply length_61|apply shorts_2040; auto|apply shorts_2040; auto].
  destruct E as (_ & -> & ->). reflexivity.
Qed.
