(** Strings of any length that fits into memory: cSHAKE and TupleHash give the right digest or fail, but no wrong digest. *)
From Coq Require Import List NArith ZArith Arith Bool Lia.
From Verif.Base Require Import Res CWord Double.
From Verif.Spec Require Import Words Client ObjClient Log2 Sp800185 CShakeArgs AnyString.
From Verif.Spec Require Keccak.
From Verif.Model Require Import Buffer Stream Api ObjApi CShake.
From Verif.Model Require TupleHash Keccak.
From Verif.Proof Require Import Words Streaming Blocks Double Api ObjApi Encode.
From Verif.Proof Require Keccak CShake TupleHash.
Import ListNotations.
Local Open Scope N_scope.
Module K := Verif.Model.Keccak.
Module T := Verif.Model.TupleHash.
Module PC := Verif.Proof.CShake.

Definition fails {A} (dbg : bool) : res A := if dbg then Throw OutOfRange else Ub OobWrite.

Section Encodings.
  Variables (log2 : N -> N) (dbg : bool).
  Hypothesis Hlog : log2_accurate log2.

  Lemma count_7_8 v : 2 ^ 48 <= v <= 2 ^ 63 -> encodeCount log2 v = 7 \/ encodeCount log2 v = 8.
  Proof.
    intros [Hl Hu]. unfold encodeCount. destruct (N.eqb_spec v 0) as [->|Hv]; [exfalso; now apply Hl|].
    assert (1 <= v) as H1 by lia. assert (v <= 2 ^ 64) as H64 by (apply (N.le_trans _ _ _ Hu); apply N.leb_le; reflexivity).
    pose proof (round_1 v H1) as R1. pose proof (round_64 v H64) as R64. pose proof (round_representable v) as Rr.
    assert (2 ^ (8 * 6) <= round53 v) as Rl by (apply round_ge; [reflexivity|exact Hl]).
    pose proof (log_lower log2 Hlog (round53 v) 6 ltac:(discriminate) (conj R1 R64) Rr Rl) as L.
    assert (round53 v <= 2 ^ 63) as R63 by (apply round_le; [reflexivity|exact Hu]).
    destruct (log_bounds log2 Hlog (round53 v) (conj R1 R64) Rr) as (_ & _ & U).
    specialize (U 0 (63 * 2 ^ 55)). rewrite N.pow_0_r, N.mul_1_r in U.
    rewrite (N.pow_mul_r 2) in U. specialize (U (N.pow_le_mono_l _ _ _ R63)).
    cbv zeta. set (l := log2 (round53 v)) in *. clearbody l.
    assert (l <= 127 * 2 ^ 51) as U2.
    { pose proof (ulp_rel l) as Hur. assert (l / 2 ^ 52 * 2 ^ 52 <= l) by (rewrite N.mul_comm; apply N.mul_div_le; discriminate).
      change (2 ^ 55) with 36028797018963968 in *. change (2 ^ 52) with 4503599627370496 in *. change (2 ^ 51) with 2251799813685248.
      set (u := ulp l) in *. set (t := l / 4503599627370496) in *. clearbody u t. lia. }
    pose proof (sum_lower l 6 ltac:(discriminate) L) as B.
    assert (round53 (l + 2 ^ 54) <= 135 * 2 ^ 51) as A.
    { apply round_le; [apply scaled_rep; reflexivity|]. change (2 ^ 51) with 2251799813685248 in *. change (2 ^ 54) with 18014398509481984. lia. }
    assert ((round53 (l + 2 ^ 54) + 2 ^ 54) / 2 ^ 55 < 9) as C.
    { apply N.div_lt_upper_bound; [discriminate|]. change (2 ^ 55) with 36028797018963968. change (2 ^ 54) with 18014398509481984 in *.
      change (2 ^ 51) with 2251799813685248 in *. lia. }
    set (t := (round53 (l + 2 ^ 54) + 2 ^ 54) / 2 ^ 55) in *. clearbody t. assert (t = 7 \/ t = 8) as [-> | ->] by lia; auto.
  Qed.

  Lemma bytes_7 v : 2 ^ 48 <= v < 2 ^ 56 -> byte_count v = 7%nat.
  Proof.
    intros [H1 H2]. destruct (byte_count_spec v) as (B1 & B2 & B3).
    { apply u64_2040. apply (N.lt_trans _ _ _ H2). reflexivity. }
    destruct (Nat.lt_trichotomy (byte_count v) 7) as [C|[C|C]]; [exfalso|exact C|exfalso].
    - assert (2 ^ (8 * N.of_nat (byte_count v)) <= 2 ^ 48) as P by (apply N.pow_le_mono_r; [discriminate|lia]).
      apply (N.lt_irrefl v). apply (N.lt_le_trans _ _ _ B2). apply (N.le_trans _ _ _ P H1).
    - destruct B3 as [B3|B3]; [lia|].
      assert (2 ^ 56 <= 2 ^ (8 * (N.of_nat (byte_count v) - 1))) as P by (apply N.pow_le_mono_r; [discriminate|lia]).
      apply (N.lt_irrefl v). apply (N.lt_le_trans _ _ _ H2). apply (N.le_trans _ _ _ P B3).
  Qed.

  Lemma start_ok n : buf_of_list dbg 8 [n] = Ok (canon 8 [n]).
  Proof. unfold buf_of_list. rewrite <- canon_nil. destruct dbg; reflexivity. Qed.

  Lemma left_count8 v : encodeCount log2 v = 8 -> leftEncode log2 dbg v = fails dbg.
  Proof.
    intros E. unfold leftEncode, fails. rewrite E, start_ok, bind_ok. change (N.to_nat 8) with 8%nat. generalize 8 at 1. intros n.
    assert (forall k x, length x = (9 - k)%nat -> (1 <= k <= 8)%nat -> encodeLoop dbg k v (canon 8 x) = if dbg then Throw OutOfRange else Ub OobWrite) as G.
    { induction k as [|k IH]; intros x Hx Hk; [lia|]. cbn [encodeLoop]. destruct (N.leb_spec 64 (8 * N.of_nat k)); [lia|].
      destruct k as [|k].
      - rewrite (full_fill dbg) by lia. destruct dbg; reflexivity.
      - rewrite fill_canon by (cbn [length]; lia). rewrite bind_ok. apply IH; [rewrite app_length; cbn [repeat length]; lia|lia]. }
    apply G; [reflexivity|lia].
  Qed.

  Lemma right_count8 v : encodeCount log2 v = 8 -> T.rightEncode log2 dbg v = fails dbg.
  Proof.
    intros E. unfold T.rightEncode, fails. rewrite E, <- canon_nil.
    rewrite encodeLoop_ok by (cbn; lia). rewrite bind_ok. apply full_fill. cbn [app]. apply be_bytes_length.
  Qed.

  Theorem left_either v : v <= 2 ^ 63 ->
    (leftEncode log2 dbg v = Ok (canon 8 (left_encode v)) /\ v < 2 ^ 56) \/ (leftEncode log2 dbg v = fails dbg /\ 2 ^ 56 - 2 ^ 8 < v).
  Proof.
    intros Hv. destruct (N.le_gt_cases v (2 ^ 56 - 2 ^ 8)) as [H|H].
    { left. split; [now apply leftEncode_ok|]. apply (N.le_lt_trans _ _ _ H). reflexivity. }
    assert (2 ^ 48 <= v) as H48. { apply N.le_trans with (2 ^ 56 - 2 ^ 8); [apply N.leb_le; reflexivity|now apply N.lt_le_incl]. }
    destruct (N.le_gt_cases (2 ^ 56) v) as [G|G].
    { right. split; [|exact H]. apply left_count8. apply (encodeCount_8 log2 Hlog). split; [|exact Hv]. apply N.le_trans with (2 ^ 56); [apply N.leb_le; reflexivity|exact G]. }
    destruct (count_7_8 v (conj H48 Hv)) as [E|E]; [left|right; split; [now apply left_count8|exact H]].
    split; [|exact G]. unfold leftEncode, left_encode. rewrite E, (bytes_7 v (conj H48 G)), start_ok, bind_ok. change (N.to_nat 7) with 7%nat.
    change (N.of_nat 7) with 7. rewrite encodeLoop_ok by (cbn; lia). reflexivity.
  Qed.

  Theorem right_either v : v <= 2 ^ 63 ->
    (T.rightEncode log2 dbg v = Ok (canon 8 (right_encode v)) /\ v < 2 ^ 56) \/ (T.rightEncode log2 dbg v = fails dbg /\ 2 ^ 56 - 2 ^ 8 < v).
  Proof.
    intros Hv. destruct (N.le_gt_cases v (2 ^ 56 - 2 ^ 8)) as [H|H].
    { left. split; [now apply rightEncode_ok|]. apply (N.le_lt_trans _ _ _ H). reflexivity. }
    assert (2 ^ 48 <= v) as H48. { apply N.le_trans with (2 ^ 56 - 2 ^ 8); [apply N.leb_le; reflexivity|now apply N.lt_le_incl]. }
    destruct (N.le_gt_cases (2 ^ 56) v) as [G|G].
    { right. split; [|exact H]. apply right_count8. apply (encodeCount_8 log2 Hlog). split; [|exact Hv]. apply N.le_trans with (2 ^ 56); [apply N.leb_le; reflexivity|exact G]. }
    destruct (count_7_8 v (conj H48 Hv)) as [E|E]; [left|right; split; [now apply right_count8|exact H]].
    split; [|exact G]. unfold T.rightEncode, right_encode. rewrite E, (bytes_7 v (conj H48 G)), <- canon_nil. change (N.to_nat 7) with 7%nat.
    rewrite encodeLoop_ok by (cbn; lia). rewrite bind_ok. cbn [app]. rewrite fill_canon by (rewrite be_bytes_length; lia). reflexivity.
  Qed.
End Encodings.

Lemma mem_short s : in_memory s -> short s \/ too_long s.
Proof. intros [H _]. destruct (N.le_gt_cases (bit_length s) (2 ^ 56 - 2 ^ 8)); [left; split; assumption|right; assumption]. Qed.
Lemma mem_len s : in_memory s -> N.of_nat (length s) <= 1152921504606846976.
Proof. intros [_ H]. unfold bit_length in H. change (2 ^ 63) with 9223372036854775808 in H. lia. Qed.
Lemma mem_span s : in_memory s -> span_ok s.
Proof. intros H. split; [apply H|]. pose proof (mem_len s H). change (2 ^ 64) with 18446744073709551616. lia. Qed.
Lemma mem_bits s : in_memory s -> umul 64 (N.of_nat (length s)) 8 = bit_length s.
Proof.
  intros H. pose proof (mem_len s H). unfold umul. rewrite trunc_id; [unfold bit_length; lia|]. unfold bnd. change (2 ^ 64) with 18446744073709551616. lia.
Qed.
Lemma mem_2040 v : v < 2 ^ 56 -> v < 2 ^ 2040.
Proof. intros H. apply u64_2040. apply (N.lt_trans _ _ _ H). reflexivity. Qed.

Lemma digest_bits l : (0 <= l < 2 ^ 28)%Z -> T.imul l 8 = Ok (l * 8)%Z /\ T.to_u64 (l * 8) = 8 * N.of_nat (Z.to_nat l) /\
  8 * N.of_nat (Z.to_nat l) <= 2 ^ 56 - 2 ^ 8.
Proof.
  intros H. change (2 ^ 28)%Z with 268435456%Z in H. split.
  - unfold T.imul. change (- 2 ^ 31)%Z with (-2147483648)%Z. change (2 ^ 31)%Z with 2147483648%Z.
    destruct (Z.leb_spec (-2147483648) (l * 8)), (Z.ltb_spec (l * 8) 2147483648); try lia. reflexivity.
  - unfold T.to_u64. rewrite Z.mod_small by (change (2 ^ 64)%Z with 18446744073709551616%Z; lia).
    change (2 ^ 56 - 2 ^ 8) with 72057594037927680. lia.
Qed.

Lemma enc_bytes s : bytes_ok s -> bit_length s < 2 ^ 56 -> bytes_ok (encode_string s).
Proof. intros H L. apply bytes_ok_app. split; [|exact H]. now apply left_encode_bytes, mem_2040. Qed.
Lemma enc_len s : bit_length s < 2 ^ 56 -> (length (encode_string s) <= length s + 256)%nat.
Proof. intros H. unfold encode_string. rewrite app_length. pose proof (left_encode_length _ (mem_2040 _ H)). lia. Qed.

Section Objects.
  Variables (log2 : N -> N) (dbg : bool).
  Hypothesis Hlog : log2_accurate log2.
  Variables (R : nat) (sufS sufK P : N).
  Hypothesis HR0 : (0 < R)%nat.
  Hypothesis HR : (R <= 200)%nat.
  Hypothesis HP : P = N.of_nat R.
  Variable hashK : nat -> list N -> list N.
  Variables (absK doneK : nat -> list N -> Buffer * K.St).
  Hypothesis IK : forall d, Implements (K.cls R sufK dbg d) (hashK d) (fun _ => True) (absK d) (doneK d).

  Definition kobj (d : nat) (m : list N) : Obj := mkObj true None (Some (absK d m)).

  Lemma kadd d m x : bytes_ok m -> span_ok x -> addData R sufS sufK dbg x (kobj d m) = Ok (kobj d (m ++ x)).
  Proof.
    intros Hm Hx. pose proof (im_add _ _ _ _ _ (IK d) m x Hm Hx) as E. cbn [c_add K.cls] in E.
    unfold addData, on_selected, kobj. cbn [m_customized m_keccak m_shake negb deref]. rewrite bind_ok, E. reflexivity.
  Qed.

  Lemma kfin d m : bytes_ok m -> exists o, finalize R sufS sufK dbg (kobj d m) = Ok o /\ toVector o = Ok (hashK d m).
  Proof.
    intros Hm. pose proof (im_fin _ _ _ _ _ (IK d) m Hm I) as E. pose proof (im_read _ _ _ _ _ (IK d) m Hm I) as E'. cbn [c_finalize c_array K.cls] in E, E'.
    unfold finalize, on_selected, kobj. cbn [m_customized m_keccak m_shake negb deref]. rewrite bind_ok, E, bind_ok. eexists. split; [reflexivity|].
    unfold toVector. cbn [m_customized m_keccak negb deref]. rewrite bind_ok. exact E'.
  Qed.

  Lemma kfold d : forall chunks m, bytes_ok m -> Forall span_ok chunks ->
    foldM (addData R sufS sufK dbg) chunks (kobj d m) = Ok (kobj d (m ++ concat chunks)) /\ bytes_ok (m ++ concat chunks).
  Proof.
    induction chunks as [|x l IH]; intros m Hm H; cbn [foldM concat]; [rewrite app_nil_r; auto|]. apply Forall_cons_iff in H. destruct H as [Hx Hl].
    rewrite kadd, bind_ok by assumption. rewrite app_assoc. apply IH; [|exact Hl]. apply bytes_ok_app. split; [exact Hm|apply Hx].
  Qed.

  Lemma process_either d m s : bytes_ok m -> in_memory s -> N.of_nat (length m) < 2 ^ 62 ->
    (processString log2 R sufS sufK dbg s (kobj d m) (N.of_nat (length m)) = Ok (kobj d (m ++ encode_string s), N.of_nat (length (m ++ encode_string s))) /\
      bit_length s < 2 ^ 56) \/
    (processString log2 R sufS sufK dbg s (kobj d m) (N.of_nat (length m)) = fails dbg /\ too_long s).
  Proof.
    intros Hm Hs Hl. unfold processString. rewrite (mem_bits s Hs). pose proof (mem_len s Hs) as Hsl.
    destruct (left_either log2 dbg Hlog (bit_length s) (proj2 Hs)) as [[E L]|[E L]]; rewrite E; [left|right; unfold fails; destruct dbg; auto].
    rewrite bind_ok, canon_span, canon_size. split; [|exact L].
    pose proof (left_encode_length _ (mem_2040 _ L)) as LL. pose proof (left_encode_bytes _ (mem_2040 _ L)) as LB.
    rewrite kadd; [|exact Hm|apply PC.small_span; [exact LB|lia]]. rewrite bind_ok.
    rewrite kadd; [|apply bytes_ok_app; auto|now apply mem_span]. rewrite bind_ok.
    unfold encode_string. rewrite <- app_assoc. f_equal. f_equal. unfold uadd. rewrite !app_length.
    change (2 ^ 62) with 4611686018427387904 in Hl.
    rewrite (trunc_id 64 (N.of_nat (length m) + _)) by (unfold bnd; change (2 ^ 64) with 18446744073709551616; lia).
    rewrite trunc_id by (unfold bnd; change (2 ^ 64) with 18446744073709551616; lia). lia.
  Qed.

  Lemma zeros_ok d : forall k m f, bytes_ok m ->
    for_ f k (fun _ o => addData R sufS sufK dbg [0] o) (kobj d m) = Ok (kobj d (m ++ repeat 0 k)).
  Proof.
    induction k as [|k IH]; intros m f Hm; cbn [for_ repeat]; [now rewrite app_nil_r|].
    rewrite kadd; [|exact Hm|apply PC.small_span; [repeat constructor|cbn; lia]]. rewrite bind_ok.
    rewrite IH by (apply bytes_ok_app; split; [exact Hm|repeat constructor]). now rewrite <- app_assoc.
  Qed.

  Lemma P_small : N.of_nat R <= 2 ^ 56 - 2 ^ 8.
  Proof. change (2 ^ 56 - 2 ^ 8) with 72057594037927680. lia. Qed.

  Lemma construct_either l n c : (0 <= l)%Z -> in_memory n -> in_memory c -> is_nil n && is_nil c = false ->
    (construct log2 R sufS sufK P dbg l n c = Ok (kobj (Z.to_nat l) (cshake_stream R n c [])) /\ bytes_ok (cshake_stream R n c [])) \/
    (construct log2 R sufS sufK P dbg l n c = fails dbg /\ (too_long n \/ too_long c)).
  Proof.
    intros Hl Hn Hc En. unfold construct. change (is_empty n) with (is_nil n). change (is_empty c) with (is_nil c). rewrite En. cbn [negb].
    assert (K.construct R l = Ok (c_new (K.cls R sufK dbg (Z.to_nat l)))) as EK.
    { unfold K.construct. destruct (Z.ltb_spec l 0); [lia|reflexivity]. }
    rewrite EK, bind_ok, (im_new _ _ _ _ _ (IK (Z.to_nat l))).
    change (mkObj true None (Some (absK (Z.to_nat l) []))) with (kobj (Z.to_nat l) []).
    rewrite HP, (leftEncode_ok log2 dbg Hlog _ P_small), bind_ok, canon_span, canon_size.
    pose proof (left_encode_length _ (max_2040 _ P_small)) as LL. pose proof (left_encode_bytes _ (max_2040 _ P_small)) as LB.
    set (w := left_encode (N.of_nat R)) in *.
    rewrite kadd; [|constructor|apply PC.small_span; [exact LB|lia]]. rewrite bind_ok. cbn [app].
    replace (uadd 64 0 (N.of_nat (length w))) with (N.of_nat (length w))
      by (unfold uadd; rewrite trunc_id; [lia|unfold bnd; change (2 ^ 64) with 18446744073709551616; lia]).
    destruct (process_either (Z.to_nat l) w n LB Hn) as [[E L]|[E L]]; [change (2 ^ 62) with 4611686018427387904; lia| |rewrite E; right; unfold fails; destruct dbg; auto].
    rewrite E, bind_ok. pose proof (enc_len n L) as Ln. pose proof (mem_len n Hn) as Sn. pose proof (enc_bytes n (proj1 Hn) L) as Bn.
    assert (bytes_ok (w ++ encode_string n)) as Bw by (apply bytes_ok_app; auto).
    destruct (process_either (Z.to_nat l) (w ++ encode_string n) c Bw Hc) as [[E2 L2]|[E2 L2]];
      [rewrite app_length; change (2 ^ 62) with 4611686018427387904; lia| |rewrite E2; right; unfold fails; destruct dbg; auto].
    pose proof (enc_bytes c (proj1 Hc) L2) as Bc. left. rewrite E2, bind_ok.
    assert (forall z, N.to_nat (bytepadCount (N.of_nat z) (N.of_nat R)) = ((R - z mod R) mod R)%nat) as pad_count.
    { intros z. unfold bytepadCount. rewrite N2Nat.inj_mod, N2Nat.inj_sub, N2Nat.inj_mod, !Nat2N.id. reflexivity. }
    rewrite pad_count, zeros_ok by (rewrite !bytes_ok_app; auto). unfold cshake_stream, bytepad. fold w. rewrite app_nil_r, <- !app_assoc.
    split; [reflexivity|]. rewrite !bytes_ok_app. split; [exact LB|]. split; [exact Bn|]. split; [exact Bc|].
    apply Forall_forall. intros x Hx. apply repeat_spec in Hx. subst x. reflexivity.
  Qed.

  Theorem cshake_either l n c chunks : (0 <= l)%Z -> in_memory n -> in_memory c -> is_nil n && is_nil c = false -> Forall span_ok chunks ->
    ohash (cls log2 R sufS sufK P dbg) (l, n, c) chunks = Ok (hashK (Z.to_nat l) (cshake_stream R n c (concat chunks))) \/
    (ohash (cls log2 R sufS sufK P dbg) (l, n, c) chunks = fails dbg /\ (too_long n \/ too_long c)).
  Proof.
    intros Hl Hn Hc En H. unfold ohash. cbn [OObj oc_construct oc_feed oc_finalize oc_vector cls].
    destruct (construct_either l n c Hl Hn Hc En) as [[E B]|[E L]]; rewrite E; [left|right; split; [unfold fails; now destruct dbg|exact L]].
    rewrite bind_ok. destruct (kfold (Z.to_nat l) chunks _ B H) as [E1 B1]. rewrite E1, bind_ok. destruct (kfin (Z.to_nat l) _ B1) as (o & E2 & E3).
    rewrite E2, bind_ok, E3. unfold cshake_stream at 1. rewrite app_nil_r. reflexivity.
  Qed.

  (** TupleHash *)
  Definition tobj (d : nat) (m : list N) (l : Z) : T.Obj := T.mkObj (kobj d m) l.
  Lemma tadd d m l x : bytes_ok m -> span_ok x -> T.addDataImpl R sufS sufK dbg x (tobj d m l) = Ok (tobj d (m ++ x) l).
  Proof. intros Hm Hx. unfold T.addDataImpl, tobj. cbn [T.m_cshake T.m_digestLength]. rewrite kadd by assumption. reflexivity. Qed.

  Lemma next_either d m l s : bytes_ok m -> in_memory s ->
    (T.nextData log2 R sufS sufK dbg s (tobj d m l) = Ok (tobj d (m ++ encode_string s) l) /\ bytes_ok (m ++ encode_string s)) \/
    (T.nextData log2 R sufS sufK dbg s (tobj d m l) = fails dbg /\ too_long s).
  Proof.
    intros Hm Hs. unfold T.nextData. rewrite (mem_bits s Hs).
    destruct (left_either log2 dbg Hlog (bit_length s) (proj2 Hs)) as [[E L]|[E L]]; rewrite E; [left|right; unfold fails; destruct dbg; auto].
    rewrite bind_ok, canon_span. pose proof (left_encode_length _ (mem_2040 _ L)) as LL. pose proof (left_encode_bytes _ (mem_2040 _ L)) as LB.
    rewrite tadd; [|exact Hm|apply PC.small_span; [exact LB|lia]]. rewrite bind_ok.
    rewrite tadd; [|apply bytes_ok_app; auto|now apply mem_span]. unfold encode_string. rewrite <- app_assoc. split; [reflexivity|].
    rewrite !bytes_ok_app. split; [exact Hm|]. split; [exact LB|apply Hs].
  Qed.

  Lemma items_either d l : forall t m, bytes_ok m -> Forall in_memory t ->
    (foldM (T.nextData log2 R sufS sufK dbg) t (tobj d m l) = Ok (tobj d (m ++ flat_map encode_string t) l) /\ bytes_ok (m ++ flat_map encode_string t)) \/
    (foldM (T.nextData log2 R sufS sufK dbg) t (tobj d m l) = fails dbg /\ Exists too_long t).
  Proof.
    induction t as [|s t IH]; intros m Hm H; cbn [foldM flat_map]; [left; rewrite app_nil_r; auto|]. apply Forall_cons_iff in H. destruct H as [Hs Ht].
    destruct (next_either d m l s Hm Hs) as [[E B]|[E L]]; rewrite E; [|right; split; [unfold fails; now destruct dbg|now constructor]].
    rewrite bind_ok. destruct (IH _ B Ht) as [[E2 B2]|[E2 L2]]; rewrite E2; [left; rewrite app_assoc; auto|right; split; [reflexivity|now constructor 2]].
  Qed.

  Theorem tuple_either l c t : (0 <= l)%Z -> in_memory c -> Forall in_memory t ->
    (ohash (T.cls log2 R sufS sufK P dbg) (l, c) t = Ok (hashK (Z.to_nat l) (cshake_stream R tuple_name c (tuple_stream (Z.to_nat l) t))) /\ (l < 2 ^ 28)%Z) \/
    (ohash (T.cls log2 R sufS sufK P dbg) (l, c) t = fails dbg /\ (too_long c \/ Exists too_long t)) \/
    (ohash (T.cls log2 R sufS sufK P dbg) (l, c) t = Ub SignedOverflow /\ (2 ^ 28 <= l)%Z).
  Proof.
    intros Hl Hc Ht. unfold ohash. cbn [OObj T.cls oc_construct oc_feed oc_finalize oc_vector]. unfold T.construct. change T.name with tuple_name.
    assert (in_memory tuple_name) as Hn by (split; [repeat constructor|apply N.leb_le; reflexivity]).
    destruct (construct_either l tuple_name c Hl Hn Hc eq_refl) as [[E B]|[E [L|L]]]; rewrite E; [|exfalso; revert L; apply N.le_ngt, N.leb_le; reflexivity|
      right; left; split; [unfold fails; now destruct dbg|now left]].
    rewrite !bind_ok. fold (tobj (Z.to_nat l) (cshake_stream R tuple_name c []) l).
    destruct (items_either (Z.to_nat l) l t _ B Ht) as [[E1 B1]|[E1 L]]; rewrite E1; [|right; left; split; [unfold fails; now destruct dbg|now right]].
    rewrite bind_ok. unfold T.finalize. cbn [tobj T.m_digestLength].
    destruct (Z.lt_ge_cases l (2 ^ 28)) as [H28|H28].
    - left. split; [|exact H28]. destruct (digest_bits l (conj Hl H28)) as (F1 & F2 & F3). rewrite F1, bind_ok, F2, (rightEncode_ok log2 dbg Hlog _ F3), bind_ok, canon_span.
      set (v := 8 * N.of_nat (Z.to_nat l)) in *.
      assert (length (right_encode v) <= 256)%nat as LL.
      { destruct (byte_count_spec v (max_2040 _ F3)) as (B2 & _). unfold right_encode. rewrite app_length, be_bytes_length. cbn [length]. lia. }
      pose proof (right_encode_bytes _ (max_2040 _ F3)) as RB.
      rewrite tadd; [|exact B1|apply PC.small_span; [exact RB|exact LL]]. rewrite bind_ok. cbn [tobj T.m_cshake T.m_digestLength].
      destruct (kfin (Z.to_nat l) ((cshake_stream R tuple_name c [] ++ flat_map encode_string t) ++ right_encode v)) as (o & E2 & E3); [apply bytes_ok_app; auto|].
      rewrite E2, !bind_ok. unfold T.toVector. cbn [T.m_cshake]. rewrite E3. unfold cshake_stream at 1. rewrite app_nil_r, <- app_assoc. reflexivity.
    - right. right. split; [|exact H28]. unfold T.imul. change (2 ^ 31)%Z with 2147483648%Z. change (2 ^ 28)%Z with 268435456%Z in H28.
      destruct (Z.ltb_spec (l * 8) 2147483648); [lia|]. rewrite andb_false_r. reflexivity.
  Qed.
End Objects.

(** ** the four classes *)
Lemma nil_short : short [].
Proof. split; [constructor|apply N.leb_le; reflexivity]. Qed.
Lemma is_nil_true {A} (l : list A) : is_nil l = true -> l = [].
Proof. now destruct l. Qed.

Ltac inst := first [assumption | (rewrite PC.R128 || rewrite PC.R256); first [reflexivity | lia]].

Theorem cshake128_either lg dbg l n c chunks : log2_accurate lg -> (0 <= l)%Z -> in_memory n -> in_memory c -> Forall span_ok chunks ->
  ohash (cls128 lg dbg) (l, n, c) chunks = Ok (Sp800185.cshake128 (Z.to_nat l) n c (concat chunks)) \/
  (ohash (cls128 lg dbg) (l, n, c) chunks = (if dbg then Throw OutOfRange else Ub OobWrite) /\ (too_long n \/ too_long c)).
Proof.
  intros Hlg Hl Hn Hc H. destruct (is_nil n && is_nil c) eqn:E.
  - left. apply andb_prop in E. destruct E as [En Ec]. rewrite (is_nil_true n En), (is_nil_true c Ec). apply PC.cshake128_hash; auto using nil_short.
  - destruct (PC.uniformK128 dbg) as (aK & dK & IK).
    destruct (cshake_either lg dbg Hlg (1344 / 8) 0x1F 0x04 (1344 / 8) ltac:(inst) ltac:(inst) ltac:(inst) _ aK dK IK l n c chunks Hl Hn Hc E H) as [F|F]; [left|right; exact F].
    unfold cls128. rewrite F. unfold Sp800185.cshake128. rewrite E. reflexivity.
Qed.
Theorem cshake256_either lg dbg l n c chunks : log2_accurate lg -> (0 <= l)%Z -> in_memory n -> in_memory c -> Forall span_ok chunks ->
  ohash (cls256 lg dbg) (l, n, c) chunks = Ok (Sp800185.cshake256 (Z.to_nat l) n c (concat chunks)) \/
  (ohash (cls256 lg dbg) (l, n, c) chunks = (if dbg then Throw OutOfRange else Ub OobWrite) /\ (too_long n \/ too_long c)).
Proof.
  intros Hlg Hl Hn Hc H. destruct (is_nil n && is_nil c) eqn:E.
  - left. apply andb_prop in E. destruct E as [En Ec]. rewrite (is_nil_true n En), (is_nil_true c Ec). apply PC.cshake256_hash; auto using nil_short.
  - destruct (PC.uniformK256 dbg) as (aK & dK & IK).
    destruct (cshake_either lg dbg Hlg (1088 / 8) 0x1F 0x04 (1088 / 8) ltac:(inst) ltac:(inst) ltac:(inst) _ aK dK IK l n c chunks Hl Hn Hc E H) as [F|F]; [left|right; exact F].
    unfold cls256. rewrite F. unfold Sp800185.cshake256. rewrite E. reflexivity.
Qed.

Theorem tuple128_either lg dbg l c t : log2_accurate lg -> (0 <= l)%Z -> in_memory c -> Forall in_memory t ->
  (ohash (T.cls128 lg dbg) (l, c) t = Ok (Sp800185.tuplehash128 (Z.to_nat l) c t) /\ (l < 2 ^ 28)%Z) \/
  (ohash (T.cls128 lg dbg) (l, c) t = (if dbg then Throw OutOfRange else Ub OobWrite) /\ (too_long c \/ Exists too_long t)) \/
  (ohash (T.cls128 lg dbg) (l, c) t = Ub SignedOverflow /\ (2 ^ 28 <= l)%Z).
Proof.
  intros Hlg Hl Hc Ht. destruct (PC.uniformK128 dbg) as (aK & dK & IK).
  exact (tuple_either lg dbg Hlg (1344 / 8) 0x1F 0x04 (1344 / 8) ltac:(inst) ltac:(inst) ltac:(inst) _ aK dK IK l c t Hl Hc Ht).
Qed.
Theorem tuple256_either lg dbg l c t : log2_accurate lg -> (0 <= l)%Z -> in_memory c -> Forall in_memory t ->
  (ohash (T.cls256 lg dbg) (l, c) t = Ok (Sp800185.tuplehash256 (Z.to_nat l) c t) /\ (l < 2 ^ 28)%Z) \/
  (ohash (T.cls256 lg dbg) (l, c) t = (if dbg then Throw OutOfRange else Ub OobWrite) /\ (too_long c \/ Exists too_long t)) \/
  (ohash (T.cls256 lg dbg) (l, c) t = Ub SignedOverflow /\ (2 ^ 28 <= l)%Z).
Proof.
  intros Hlg Hl Hc Ht. destruct (PC.uniformK256 dbg) as (aK & dK & IK).
  exact (tuple_either lg dbg Hlg (1088 / 8) 0x1F 0x04 (1088 / 8) ltac:(inst) ltac:(inst) ltac:(inst) _ aK dK IK l c t Hl Hc Ht).
Qed.

Theorem left_never lg dbg v : log2_accurate lg -> v <= 2 ^ 63 ->
  (exists b, leftEncode lg dbg v = Ok b /\ buf_span b = left_encode v) \/
  (leftEncode lg dbg v = (if dbg then Throw OutOfRange else Ub OobWrite) /\ 2 ^ 56 - 2 ^ 8 < v).
Proof. intros Hlg Hv. destruct (left_either lg dbg Hlg v Hv) as [[E _]|E]; [left|right; exact E]. rewrite E. eexists. split; [reflexivity|apply canon_span]. Qed.
Theorem right_never lg dbg v : log2_accurate lg -> v <= 2 ^ 63 ->
  (exists b, T.rightEncode lg dbg v = Ok b /\ buf_span b = right_encode v) \/
  (T.rightEncode lg dbg v = (if dbg then Throw OutOfRange else Ub OobWrite) /\ 2 ^ 56 - 2 ^ 8 < v).
Proof. intros Hlg Hv. destruct (right_either lg dbg Hlg v Hv) as [[E _]|E]; [left|right; exact E]. rewrite E. eexists. split; [reflexivity|apply canon_span]. Qed.
