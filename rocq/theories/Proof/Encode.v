(** leftEncode and rightEncode are left_encode and right_encode of SP 800-185, which can be decoded. *)
From Coq Require Import List NArith ZArith Arith Bool Lia.
From Verif.Base Require Import Res CWord Double.
From Verif.Spec Require Import Words Log2 Sp800185.
From Verif.Model Require Import Buffer CShake TupleHash.
From Verif.Proof Require Import Words Streaming Blocks Double.
Import ListNotations.
Local Open Scope N_scope.

(** ** the byte count of the standard *)

Lemma find_seq (f : nat -> bool) : forall len start,
  match find f (seq start len) with
  | Some n => (start <= n < start + len)%nat /\ f n = true /\ forall k, (start <= k < n)%nat -> f k = false
  | None => forall k, (start <= k < start + len)%nat -> f k = false
  end.
Proof.
  induction len as [|len IH]; intros start; cbn [seq find]; [lia|].
  destruct (f start) eqn:E; [split; [lia|split; [exact E|lia]]|].
  specialize (IH (S start)). destruct (find f (seq (S start) len)) as [n|].
  - destruct IH as (H1 & H2 & H3). split; [lia|]. split; [exact H2|].
    intros k Hk. destruct (Nat.eq_dec k start) as [->|N]; [exact E|apply H3; lia].
  - intros k Hk. destruct (Nat.eq_dec k start) as [->|N]; [exact E|apply IH; lia].
Qed.

Lemma byte_count_spec x : x < 2 ^ 2040 ->
  (1 <= byte_count x <= 255)%nat /\ x < 2 ^ (8 * N.of_nat (byte_count x)) /\
  (byte_count x = 1%nat \/ 2 ^ (8 * (N.of_nat (byte_count x) - 1)) <= x).
Proof.
  intros Hx. unfold byte_count. pose proof (find_seq (fun n => x <? 2 ^ (8 * N.of_nat n)) 255 1) as H.
  destruct (find _ _) as [n|].
  - destruct H as (H1 & H2 & H3). apply N.ltb_lt in H2. split; [lia|]. split; [exact H2|].
    destruct (Nat.eq_dec n 1) as [->|N]; [left; reflexivity|right].
    specialize (H3 (n - 1)%nat ltac:(lia)). apply N.ltb_ge in H3. replace (N.of_nat n - 1) with (N.of_nat (n - 1)) by lia. exact H3.
  - exfalso. specialize (H 255%nat ltac:(lia)). apply N.ltb_ge in H. change (8 * N.of_nat 255) with 2040 in H.
    revert H Hx. generalize (2 ^ 2040). intros; lia.
Qed.

Lemma u64_2040 x : x < 2 ^ 64 -> x < 2 ^ 2040.
Proof. intros H. apply (N.lt_trans _ _ _ H). apply N.pow_lt_mono_r; reflexivity. Qed.

Lemma pow256 k : 256 ^ k = 2 ^ (8 * k).
Proof. change 256 with (2 ^ 8). now rewrite <- N.pow_mul_r. Qed.

(** ** decoding *)

Lemma be_bytes_inj n x y : x < 2 ^ (8 * N.of_nat n) -> y < 2 ^ (8 * N.of_nat n) -> be_bytes n x = be_bytes n y -> x = y.
Proof.
  intros Hx Hy E. apply (f_equal be_value) in E. rewrite !be_value_bytes, pow256, !N.mod_small in E by assumption. exact E.
Qed.

Lemma app_inj_len {A} (a b c d : list A) : length a = length c -> a ++ b = c ++ d -> a = c /\ b = d.
Proof.
  revert c; induction a as [|x a IH]; intros [|y c] L E; cbn in *; try discriminate; [auto|].
  injection E as -> E. injection L as L. destruct (IH c L E) as [-> ->]. auto.
Qed.

Lemma app_inj_len_r {A} (a b c d : list A) : length b = length d -> a ++ b = c ++ d -> a = c /\ b = d.
Proof.
  intros L E. apply app_inj_len; [|exact E]. apply (f_equal (@length A)) in E. rewrite !app_length in E. lia.
Qed.

Theorem left_encode_inj x y r r' : x < 2 ^ 2040 -> y < 2 ^ 2040 ->
  left_encode x ++ r = left_encode y ++ r' -> x = y /\ r = r'.
Proof.
  intros Hx Hy E. destruct (byte_count_spec x Hx) as (_ & Bx & _). destruct (byte_count_spec y Hy) as (_ & By & _).
  unfold left_encode in E. cbn [app] in E. injection E as En E. apply Nnat.Nat2N.inj in En. rewrite <- En in *.
  apply app_inj_len in E; [|now rewrite !be_bytes_length]. destruct E as [E ->]. split; [|reflexivity].
  now apply (be_bytes_inj _ _ _ Bx By).
Qed.

Theorem right_encode_inj x y r r' : x < 2 ^ 2040 -> y < 2 ^ 2040 ->
  r ++ right_encode x = r' ++ right_encode y -> x = y /\ r = r'.
Proof.
  intros Hx Hy E. destruct (byte_count_spec x Hx) as (_ & Bx & _). destruct (byte_count_spec y Hy) as (_ & By & _).
  unfold right_encode in E. rewrite !app_assoc in E. apply app_inj_tail in E. destruct E as [E En].
  apply Nnat.Nat2N.inj in En. rewrite <- En in *.
  apply app_inj_len_r in E; [|now rewrite !be_bytes_length]. destruct E as [-> E]. split; [|reflexivity].
  now apply (be_bytes_inj _ _ _ Bx By).
Qed.

Lemma left_encode_length x : x < 2 ^ 2040 -> (2 <= length (left_encode x) <= 256)%nat.
Proof. intros H. destruct (byte_count_spec x H) as (B & _). unfold left_encode. cbn [length]. rewrite be_bytes_length. lia. Qed.
Lemma left_encode_bytes x : x < 2 ^ 2040 -> bytes_ok (left_encode x).
Proof.
  intros H. destruct (byte_count_spec x H) as (B & _). constructor; [|apply be_bytes_ok]. unfold byte_ok. lia.
Qed.
Lemma right_encode_bytes x : x < 2 ^ 2040 -> bytes_ok (right_encode x).
Proof.
  intros H. destruct (byte_count_spec x H) as (B & _). apply bytes_ok_app. split; [apply be_bytes_ok|].
  constructor; [|constructor]. unfold byte_ok. lia.
Qed.

(** ** the code *)

Lemma be_bytes_S n x : be_bytes (S n) x = ((x / 2 ^ (8 * N.of_nat n)) mod 256) :: be_bytes n x.
Proof.
  unfold be_bytes. rewrite !le_bytes_seq, seq_S, map_app, rev_app_distr. reflexivity.
Qed.

Section Code.
  Variables (log2 : N -> N) (dbg : bool).
  Hypothesis Hlog : log2_accurate log2.

  Lemma encodeLoop_ok v : forall k x, (length x + k <= 8)%nat ->
    encodeLoop dbg k v (canon 8 x) = Ok (canon 8 (x ++ be_bytes k v)).
  Proof.
    induction k as [|k IH]; intros x Hx; cbn [encodeLoop]; [now rewrite app_nil_r|].
    destruct (N.leb_spec 64 (8 * N.of_nat k)); [lia|].
    rewrite fill_canon by (cbn [length]; lia). rewrite bind_ok. cbn [repeat]. rewrite IH by (rewrite app_length; cbn; lia).
    rewrite ror8_spec, be_bytes_S, <- app_assoc. reflexivity.
  Qed.

  Lemma max_2040 v : v <= 2 ^ 56 - 2 ^ 8 -> v < 2 ^ 2040.
  Proof. intros H. apply u64_2040. apply (N.le_lt_trans _ _ _ H). reflexivity. Qed.

  Lemma count_ok v : v <= 2 ^ 56 - 2 ^ 8 -> encodeCount log2 v = N.of_nat (byte_count v) /\ (1 <= byte_count v <= 7)%nat.
  Proof.
    intros H. destruct (byte_count_spec v (max_2040 v H)) as (B1 & B2 & B3). split.
    - apply (encodeCount_ok log2 Hlog); [exact H|lia|exact B2|]. destruct B3 as [->|B3]; [left; reflexivity|right; exact B3].
    - split; [lia|]. destruct B3 as [->|B3]; [lia|]. destruct (Nat.le_gt_cases (byte_count v) 7) as [|C]; [assumption|exfalso].
      assert (2 ^ 56 <= 2 ^ (8 * (N.of_nat (byte_count v) - 1))) as P by (apply N.pow_le_mono_r; [discriminate|lia]).
      pose proof (N.le_trans _ _ _ P (N.le_trans _ _ _ B3 H)) as Q. now apply Q.
  Qed.

  Theorem leftEncode_ok v : v <= 2 ^ 56 - 2 ^ 8 -> leftEncode log2 dbg v = Ok (canon 8 (left_encode v)).
  Proof.
    intros H. destruct (count_ok v H) as [E B]. unfold leftEncode, left_encode. rewrite E.
    assert (buf_of_list dbg 8 [N.of_nat (byte_count v)] = Ok (canon 8 [N.of_nat (byte_count v)])) as ->.
    { unfold buf_of_list. rewrite <- canon_nil. destruct dbg; reflexivity. }
    rewrite bind_ok, Nnat.Nat2N.id. apply encodeLoop_ok. cbn [length]. lia.
  Qed.

  Theorem rightEncode_ok v : v <= 2 ^ 56 - 2 ^ 8 -> rightEncode log2 dbg v = Ok (canon 8 (right_encode v)).
  Proof.
    intros H. destruct (count_ok v H) as [E B]. unfold rightEncode, right_encode. rewrite E, <- canon_nil, Nnat.Nat2N.id.
    rewrite encodeLoop_ok by (cbn [length]; lia). rewrite bind_ok. cbn [app].
    rewrite fill_canon by (rewrite be_bytes_length; lia). reflexivity.
  Qed.

  (** eight bytes and the count do not fit the Buffer<uint8_t, 8> *)
  Lemma full_fill x v : length x = 8%nat -> buf_fill dbg v 1 (canon 8 x) = if dbg then Throw OutOfRange else Ub OobWrite.
  Proof.
    intros H. unfold buf_fill, buf_check, canon. cbn [b_end b_arr]. rewrite app_length, repeat_length, H.
    destruct dbg; [reflexivity|]. rewrite bind_ok. cbn [for_]. unfold buf_put. cbn [b_end b_arr]. unfold aset.
    rewrite app_length, repeat_length, H. reflexivity.
  Qed.

  Theorem leftEncode_overflow v : 2 ^ 56 - 4 <= v <= 2 ^ 63 ->
    leftEncode log2 dbg v = if dbg then Throw OutOfRange else Ub OobWrite.
  Proof.
    intros H. unfold leftEncode. rewrite (encodeCount_8 log2 Hlog v H).
    assert (buf_of_list dbg 8 [8] = Ok (canon 8 [8])) as ->.
    { unfold buf_of_list. rewrite <- canon_nil. destruct dbg; reflexivity. }
    rewrite bind_ok. change (N.to_nat 8) with 8%nat. generalize 8 at 1. intros n.
    assert (forall k x, length x = (9 - k)%nat -> (1 <= k <= 8)%nat -> encodeLoop dbg k v (canon 8 x) = if dbg then Throw OutOfRange else Ub OobWrite) as G.
    { induction k as [|k IH]; intros x Hx Hk; [lia|]. cbn [encodeLoop]. destruct (N.leb_spec 64 (8 * N.of_nat k)); [lia|].
      destruct k as [|k].
      - rewrite full_fill by lia. destruct dbg; reflexivity.
      - rewrite fill_canon by (cbn [length]; lia). rewrite bind_ok. apply IH; [rewrite app_length; cbn [repeat length]; lia|lia]. }
    apply G; [reflexivity|lia].
  Qed.

  Theorem rightEncode_overflow v : 2 ^ 56 - 4 <= v <= 2 ^ 63 ->
    rightEncode log2 dbg v = if dbg then Throw OutOfRange else Ub OobWrite.
  Proof.
    intros H. unfold rightEncode. rewrite (encodeCount_8 log2 Hlog v H), <- canon_nil.
    rewrite encodeLoop_ok by (cbn; lia). rewrite bind_ok. apply full_fill. cbn [app]. apply be_bytes_length.
  Qed.
End Code.

(** ** statements about the objects *)
Theorem left_ok log2 dbg v : log2_accurate log2 -> v <= 2 ^ 56 - 2 ^ 8 ->
  exists b, leftEncode log2 dbg v = Ok b /\ buf_span b = left_encode v.
Proof. intros Hlog H. rewrite leftEncode_ok by assumption. eexists. split; [reflexivity|]. apply canon_span. Qed.
Theorem right_ok log2 dbg v : log2_accurate log2 -> v <= 2 ^ 56 - 2 ^ 8 ->
  exists b, rightEncode log2 dbg v = Ok b /\ buf_span b = right_encode v.
Proof. intros Hlog H. rewrite rightEncode_ok by assumption. eexists. split; [reflexivity|]. apply canon_span. Qed.

Lemma count_shape v : v <= 2 ^ 56 - 2 ^ 8 -> let n := N.of_nat (byte_count v) in
  length (be_bytes (byte_count v) v) = N.to_nat n /\ be_value (be_bytes (byte_count v) v) = v /\ bytes_ok (be_bytes (byte_count v) v) /\
  1 <= n /\ v < 256 ^ n /\ (forall k, 1 <= k -> v < 256 ^ k -> n <= k).
Proof.
  intros H. destruct (byte_count_spec v (max_2040 v H)) as (B1 & B2 & B3). cbv zeta. rewrite pow256.
  split; [rewrite be_bytes_length; lia|]. split; [rewrite be_value_bytes, pow256; now apply N.mod_small|].
  split; [apply be_bytes_ok|]. split; [lia|]. split; [exact B2|]. intros k Hk Hv. rewrite pow256 in Hv.
  destruct B3 as [B3|B3]; [lia|]. pose proof (N.le_lt_trans _ _ _ B3 Hv) as L. apply N.pow_lt_mono_r_iff in L; [|reflexivity]. lia.
Qed.
Theorem left_shape log2 dbg v : log2_accurate log2 -> v <= 2 ^ 56 - 2 ^ 8 ->
  exists b n digits, leftEncode log2 dbg v = Ok b /\ buf_span b = n :: digits /\
    length digits = N.to_nat n /\ be_value digits = v /\ bytes_ok digits /\
    1 <= n /\ v < 256 ^ n /\ (forall k, 1 <= k -> v < 256 ^ k -> n <= k).
Proof.
  intros Hlog H. destruct (left_ok log2 dbg v Hlog H) as (b & E & S). exists b, (N.of_nat (byte_count v)), (be_bytes (byte_count v) v).
  split; [exact E|]. split; [exact S|]. now apply count_shape.
Qed.
Theorem right_shape log2 dbg v : log2_accurate log2 -> v <= 2 ^ 56 - 2 ^ 8 ->
  exists b n digits, rightEncode log2 dbg v = Ok b /\ buf_span b = digits ++ [n] /\
    length digits = N.to_nat n /\ be_value digits = v /\ bytes_ok digits /\
    1 <= n /\ v < 256 ^ n /\ (forall k, 1 <= k -> v < 256 ^ k -> n <= k).
Proof.
  intros Hlog H. destruct (right_ok log2 dbg v Hlog H) as (b & E & S). exists b, (N.of_nat (byte_count v)), (be_bytes (byte_count v) v).
  split; [exact E|]. split; [exact S|]. now apply count_shape.
Qed.

Theorem left_unique log2 dbg v v' b b' rest rest' : log2_accurate log2 -> v <= 2 ^ 56 - 2 ^ 8 -> v' <= 2 ^ 56 - 2 ^ 8 ->
  leftEncode log2 dbg v = Ok b -> leftEncode log2 dbg v' = Ok b' -> buf_span b ++ rest = buf_span b' ++ rest' -> v = v' /\ rest = rest'.
Proof.
  intros Hlog H H' E E' R. destruct (left_ok log2 dbg v Hlog H) as (c & F & S). destruct (left_ok log2 dbg v' Hlog H') as (c' & F' & S').
  rewrite E in F. injection F as <-. rewrite E' in F'. injection F' as <-. rewrite S, S' in R. apply left_encode_inj in R; [exact R|apply max_2040, H|apply max_2040, H'].
Qed.
Theorem right_unique log2 dbg v v' b b' rest rest' : log2_accurate log2 -> v <= 2 ^ 56 - 2 ^ 8 -> v' <= 2 ^ 56 - 2 ^ 8 ->
  rightEncode log2 dbg v = Ok b -> rightEncode log2 dbg v' = Ok b' -> rest ++ buf_span b = rest' ++ buf_span b' -> v = v' /\ rest = rest'.
Proof.
  intros Hlog H H' E E' R. destruct (right_ok log2 dbg v Hlog H) as (c & F & S). destruct (right_ok log2 dbg v' Hlog H') as (c' & F' & S').
  rewrite E in F. injection F as <-. rewrite E' in F'. injection F' as <-. rewrite S, S' in R. apply right_encode_inj in R; [exact R|apply max_2040, H|apply max_2040, H'].
Qed.
