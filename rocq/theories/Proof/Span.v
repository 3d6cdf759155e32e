(** gsl::span does what Spec/View.v says. *)
From Coq Require Import List NArith ZArith Arith Bool Lia.
From Verif.Base Require Import CWord.
From Verif.Spec Require Import View.
From Verif.Proof Require Import Words.
From Verif.Model Require Import Span.
Import ListNotations.
Local Open Scope Z_scope.

Definition ext_of (v : view) : N := if fixed v then N.of_nat (count v) else dynamic_extent.
Definition ptr_of (a : option nat) (k : nat) : pointer := match a with Some a => At a (Z.of_nat k) | None => Null end.
Definition repr (v : view) : span := mkSpan (ext_of v) (ptr_of (array v) (start v)) (N.of_nat (count v)).
Definition repr_cursor (c : cursor) : iterator :=
  mkIterator (ptr_of (over c) (from c)) (ptr_of (over c) (from c + len c)) (ptr_of (over c) (from c + place c)).
Definition repr_state (st : state) : vars := mkVars (mem st) (map repr (views st)) (map repr_cursor (cursors st)).

Definition in_array (m : arrays) (a : option nat) (k n : nat) : Prop :=
  match a with
  | Some a => (a < length m)%nat /\ (k + n <= length (nth a m []))%nat
  | None => k = 0%nat /\ n = 0%nat
  end.
Definition wf_view (m : arrays) (v : view) : Prop := in_array m (array v) (start v) (count v).
Definition wf_cursor (m : arrays) (c : cursor) : Prop := in_array m (over c) (from c) (len c) /\ (place c <= len c)%nat.
Definition small (m : arrays) : Prop := forall a, (N.of_nat (length (nth a m [])) < 2 ^ 63)%N.
Record wf (st : state) : Prop := mkWf {
  wf_small : small (mem st);
  wf_views : Forall (wf_view (mem st)) (views st);
  wf_cursors : Forall (wf_cursor (mem st)) (cursors st) }.

Ltac nums :=
  change (2 ^ 63)%N with 9223372036854775808%N in *; change (2 ^ 64)%N with 18446744073709551616%N in *;
  change (2 ^ 63) with 9223372036854775808 in *; change (2 ^ 64) with 18446744073709551616 in *;
  unfold dynamic_extent in *.

Lemma usub_le a b : (b <= a)%N -> (a < 2 ^ 64)%N -> usub 64 a b = (a - b)%N.
Proof.
  intros H L. unfold usub. rewrite N.shiftl_1_l, !trunc_mod. nums.
  rewrite (N.mod_small b) by lia.
  replace (a + (18446744073709551616 - b))%N with (a - b + 1 * 18446744073709551616)%N by lia.
  rewrite N.mod_add by lia. apply N.mod_small. lia.
Qed.

Lemma count_small m v : small m -> wf_view m v -> (N.of_nat (count v) < 2 ^ 63)%N.
Proof.
  intros S W. unfold wf_view, in_array in W. destruct (array v) as [a|].
  - specialize (S a). lia.
  - nums. lia.
Qed.
Lemma len_small m c : small m -> wf_cursor m c -> (N.of_nat (len c) < 2 ^ 63)%N.
Proof.
  intros S [W _]. unfold in_array in W. destruct (over c) as [a|].
  - specialize (S a). lia.
  - nums. lia.
Qed.

Lemma size_repr m v : small m -> wf_view m v -> size (repr v) = N.of_nat (count v).
Proof.
  intros S W. pose proof (count_small _ _ S W). unfold size, repr, ext_of. cbn [Extent size_].
  destruct (fixed v).
  - destruct (N.eqb_spec (N.of_nat (count v)) dynamic_extent); [nums; lia|reflexivity].
  - rewrite N.eqb_refl. reflexivity.
Qed.

Lemma padd_ok m a k n d : in_array m a k n -> 0 <= d <= Z.of_nat n ->
  padd m (ptr_of a k) d = Done (ptr_of a (k + Z.to_nat d)).
Proof.
  unfold in_array, ptr_of, padd, array_size. intros W H. destruct a as [a|].
  - replace ((0 <=? Z.of_nat k + d) && (Z.of_nat k + d <=? Z.of_nat (length (nth a m [])))) with true.
    + do 2 f_equal. lia.
    + symmetry. apply andb_true_iff. split; apply Z.leb_le; lia.
  - destruct W as [-> ->]. replace d with 0 by lia. reflexivity.
Qed.
Lemma padd_Done m a k k' : (a < length m)%nat -> 0 <= k + k' <= Z.of_nat (length (nth a m [])) ->
  padd m (At a k) k' = Done (At a (k + k')).
Proof.
  intros _ H. unfold padd, array_size.
  destruct (Z.leb_spec 0 (k + k')); [|lia]. destruct (Z.leb_spec (k + k') (Z.of_nat (length (nth a m [])))); [|lia]. reflexivity.
Qed.

Lemma storage_dyn m a k n (b : bool) : in_array m a k n -> small m ->
  (if b then storage else storage_known) dynamic_extent (ptr_of a k) (N.of_nat n) =
  Done (mkSpan dynamic_extent (ptr_of a k) (N.of_nat n)).
Proof.
  intros W S. assert (L : (N.of_nat n < 2 ^ 63)%N).
  { unfold in_array in W. destruct a as [a|]; [specialize (S a); lia|nums; lia]. }
  assert (E : extent_type dynamic_extent (N.of_nat n) = Done tt).
  { unfold extent_type. rewrite N.eqb_refl. destruct (N.eqb_spec (N.of_nat n) dynamic_extent); [nums; lia|reflexivity]. }
  destruct b; unfold storage, storage_known; rewrite E; cbn [bind]; [|reflexivity].
  unfold size. cbn [Extent size_]. rewrite N.eqb_refl.
  unfold in_array, ptr_of, pnull in *. destruct a as [a|]; [reflexivity|]. destruct W as [_ ->]. reflexivity.
Qed.
Lemma storage_fixed m a k n : in_array m a k n -> small m ->
  storage (N.of_nat n) (ptr_of a k) (N.of_nat n) = Done (mkSpan (N.of_nat n) (ptr_of a k) (N.of_nat n)).
Proof.
  intros W S. assert (L : (N.of_nat n < 2 ^ 63)%N).
  { unfold in_array in W. destruct a as [a|]; [specialize (S a); lia|nums; lia]. }
  unfold storage, extent_type, size. cbn [Extent size_]. rewrite N.eqb_refl.
  destruct (N.eqb_spec (N.of_nat n) dynamic_extent); [nums; lia|].
  cbn [bind Expects]. unfold in_array, ptr_of, pnull in *. destruct a as [a|]; [reflexivity|]. destruct W as [_ ->]. reflexivity.
Qed.
Lemma span_count_dyn m a k n : in_array m a k n -> small m ->
  span_count dynamic_extent (ptr_of a k) (N.of_nat n) = Done (mkSpan dynamic_extent (ptr_of a k) (N.of_nat n)).
Proof. intros W S. unfold span_count. rewrite (storage_dyn m a k n true W S). cbn [bind]. rewrite N.eqb_refl. reflexivity. Qed.
Lemma span_count_fixed m a k n : in_array m a k n -> small m ->
  span_count (N.of_nat n) (ptr_of a k) (N.of_nat n) = Done (mkSpan (N.of_nat n) (ptr_of a k) (N.of_nat n)).
Proof.
  intros W S. unfold span_count. rewrite (storage_fixed m a k n W S). cbn [bind]. rewrite N.eqb_refl.
  destruct (N.of_nat n =? dynamic_extent)%N; reflexivity.
Qed.

Lemma in_part m a k n o p : in_array m a k n -> (o + p <= n)%nat -> in_array m a (k + o) p.
Proof. unfold in_array. destruct a; lia. Qed.

(** ** Operations on spans *)

Section Ops.
  Variables (m : arrays) (v : view).
  Hypotheses (S : small m) (W : wf_view m v).

  Let small_count : (N.of_nat (count v) < 2 ^ 63)%N.
  Proof. exact (count_small m v S W). Qed.

  Lemma ext_dyn : (Extent (repr v) =? dynamic_extent)%N = negb (fixed v).
  Proof using S W.
    unfold repr, ext_of. cbn [Extent]. destruct (fixed v); [|reflexivity].
    destruct (N.eqb_spec (N.of_nat (count v)) dynamic_extent); [nums; lia|reflexivity].
  Qed.
  Lemma ext_fix : fixed v = true -> Extent (repr v) = N.of_nat (count v).
  Proof. unfold repr, ext_of. cbn [Extent]. intros ->. reflexivity. Qed.

  Lemma convert_dyn : span_convert dynamic_extent (repr v) = Done (repr (part 0 (count v) false v)).
  Proof using S W.
    unfold span_convert. rewrite N.eqb_refl. cbn [orb static_assert bind]. rewrite (N.eqb_sym dynamic_extent), ext_dyn.
    replace (repr (part 0 (count v) false v)) with (mkSpan dynamic_extent (ptr_of (array v) (start v)) (N.of_nat (count v)))
      by (unfold repr, part; cbn [array start count]; rewrite Nat.add_0_r; reflexivity).
    destruct (fixed v) eqn:F; cbn [negb].
    - rewrite (size_repr m) by assumption. unfold repr. cbn [data]. apply (storage_dyn m _ _ _ true W S).
    - unfold repr, ext_of. rewrite F. reflexivity.
  Qed.
  Lemma convert_fix e : (e < 2 ^ 64 - 1)%N ->
    span_convert e (repr v) =
    if fixed v then (if e =? N.of_nat (count v) then Done (repr v) else IllFormed)%N
    else (if e =? N.of_nat (count v) then Done (repr (part 0 (count v) true v)) else Terminates)%N.
  Proof using S W.
    intros He. unfold span_convert. rewrite ext_dyn.
    destruct (N.eqb_spec e dynamic_extent); [nums; lia|]. cbn [orb].
    destruct (fixed v) eqn:F; cbn [negb].
    - rewrite (ext_fix F). destruct (N.eqb_spec e (N.of_nat (count v))); reflexivity.
    - rewrite orb_true_r. cbn [static_assert bind].
      destruct (N.eqb_spec e (Extent (repr v))) as [E|_].
      { unfold repr, ext_of in E. rewrite F in E. cbn [Extent] in E. contradiction. }
      rewrite (size_repr m) by assumption. unfold repr at 1. cbn [data].
      destruct (N.eqb_spec e (N.of_nat (count v))) as [->|NE].
      + rewrite (storage_fixed m) by assumption. unfold repr, part, ext_of. cbn [array start count fixed].
        rewrite Nat.add_0_r. reflexivity.
      + unfold storage, extent_type. destruct (N.eqb_spec e dynamic_extent); [nums; lia|].
        destruct (N.eqb_spec (N.of_nat (count v)) e); [congruence|]. reflexivity.
  Qed.

  Lemma subspan_dyn_ok o n : fixed v = false -> (o < 2 ^ 64)%N -> is_count n ->
    make_subspan_dynamic m (repr v) o (extent_arg n) =
    if fits v o n then Done (repr (part (N.to_nat o) (part_size v o n) false v)) else Terminates.
  Proof using S W.
    intros F Ho Hn. unfold make_subspan_dynamic. rewrite (size_repr m) by assumption.
    unfold fits. destruct (N.leb_spec o (N.of_nat (count v))) as [L|L]; cbn [Expects bind andb]; [|reflexivity].
    rewrite usub_le by (nums; lia).
    assert (P : padd m (data (repr v)) (Z.of_N o) = Done (ptr_of (array v) (start v + N.to_nat o))).
    { unfold repr. cbn [data]. rewrite (padd_ok m _ _ (count v)) by (try assumption; lia). do 3 f_equal. lia. }
    destruct n as [n|]; cbn [extent_arg is_count part_size] in *.
    - destruct (N.eqb_spec n dynamic_extent); [nums; lia|].
      replace (n <=? N.of_nat (count v) - o)%N with (o + n <=? N.of_nat (count v))%N
        by (destruct (N.leb_spec (o + n) (N.of_nat (count v))), (N.leb_spec n (N.of_nat (count v) - o)); lia || reflexivity).
      destruct (N.leb_spec (o + n) (N.of_nat (count v))) as [L2|L2]; cbn [Expects bind]; [|reflexivity].
      rewrite P. cbn [bind]. rewrite <- (N2Nat.id n) at 1.
      rewrite (storage_dyn m _ _ (N.to_nat n) false) by first [assumption | apply (in_part m _ _ (count v)); [assumption|lia]].
      reflexivity.
    - rewrite N.eqb_refl, P. cbn [bind].
      replace (N.of_nat (count v) - o)%N with (N.of_nat (count v - N.to_nat o)) by lia.
      rewrite (storage_dyn m _ _ _ false) by first [assumption | apply (in_part m _ _ (count v)); [assumption|lia]].
      reflexivity.
  Qed.
End Ops.

Lemma subspan_ok m v o n : small m -> wf_view m v -> (o < 2 ^ 64)%N -> is_count n ->
  subspan m (repr v) o (extent_arg n) =
  if fits v o n then Done (repr (part (N.to_nat o) (part_size v o n) false v)) else Terminates.
Proof.
  intros S W Ho Hn. unfold subspan, make_subspan. rewrite (ext_dyn m) by assumption.
  destruct (fixed v) eqn:F; cbn [negb].
  - rewrite (convert_dyn m) by assumption. cbn [bind].
    rewrite (subspan_dyn_ok m (part 0 (count v) false v)); try assumption; try reflexivity.
    + unfold fits, part_size, part. cbn [array start count]. rewrite Nat.add_0_r. reflexivity.
    + unfold wf_view, part. cbn [array start count]. rewrite Nat.add_0_r. exact W.
  - apply (subspan_dyn_ok m); assumption.
Qed.

Section Ops2.
  Variables (m : arrays) (v : view).
  Hypotheses (S : small m) (W : wf_view m v).

  Let small_count : (N.of_nat (count v) < 2 ^ 63)%N.
  Proof. exact (count_small m v S W). Qed.

  Lemma fits_0 n : fits v 0 (Some n) = (n <=? N.of_nat (count v))%N.
  Proof. unfold fits. rewrite N.add_0_l. replace (0 <=? N.of_nat (count v))%N with true by (symmetry; apply N.leb_le; lia). reflexivity. Qed.

  Lemma first_ok n :
    first (repr v) n = if fits v 0 (Some n) then Done (repr (part 0 (N.to_nat n) false v)) else Terminates.
  Proof using S W.
    unfold first. rewrite (size_repr m) by assumption. rewrite fits_0.
    destruct (N.leb_spec n (N.of_nat (count v))) as [L|L]; cbn [Expects bind]; [|reflexivity].
    unfold repr at 1. cbn [data]. rewrite <- (N2Nat.id n) at 1.
    rewrite (span_count_dyn m); [|rewrite <- (Nat.add_0_r (start v)); apply (in_part m _ _ (count v)); [assumption|lia]|assumption].
    unfold repr, part, ext_of. cbn [array start count fixed]. rewrite Nat.add_0_r. reflexivity.
  Qed.
  Lemma last_ok n :
    last m (repr v) n =
    if fits v 0 (Some n) then Done (repr (part (count v - N.to_nat n) (N.to_nat n) false v)) else Terminates.
  Proof using S W.
    unfold last. rewrite (size_repr m) by assumption. rewrite fits_0.
    destruct (N.leb_spec n (N.of_nat (count v))) as [L|L]; cbn [Expects bind]; [|reflexivity].
    rewrite usub_le by (nums; lia).
    pose proof (subspan_ok m v (N.of_nat (count v) - n) None S W ltac:(nums; lia) I) as E.
    cbn [extent_arg] in E. unfold subspan in E. rewrite E.
    unfold fits. rewrite andb_true_r.
    destruct (N.leb_spec (N.of_nat (count v) - n) (N.of_nat (count v))); [|lia].
    unfold part_size. replace (N.to_nat (N.of_nat (count v) - n)) with (count v - N.to_nat n)%nat by lia.
    replace (count v - (count v - N.to_nat n))%nat with (N.to_nat n) by lia. reflexivity.
  Qed.

  Definition gate (b : bool) (s : outcome span) : outcome span :=
    if b then s else if fixed v then IllFormed else Terminates.

  Lemma count_fixed a k n : in_array m a k n ->
    span_count (N.of_nat n) (ptr_of a k) (N.of_nat n) = Done (repr (mkView a k n true)).
  Proof using S. intros H. rewrite (span_count_fixed m) by assumption. reflexivity. Qed.

  Lemma firstT_ok n : firstT (repr v) n = gate (fits v 0 (Some n)) (Done (repr (part 0 (N.to_nat n) true v))).
  Proof using S W.
    unfold firstT, gate. rewrite (size_repr m), (ext_dyn m), fits_0 by assumption.
    assert (G : (n <= N.of_nat (count v))%N -> span_count n (data (repr v)) n = Done (repr (part 0 (N.to_nat n) true v))).
    { intros L. unfold repr at 1. cbn [data]. rewrite <- (N2Nat.id n) at 1 2.
      rewrite count_fixed by (rewrite <- (Nat.add_0_r (start v)); apply (in_part m _ _ (count v)); [assumption|lia]).
      unfold part. rewrite Nat.add_0_r. reflexivity. }
    destruct (fixed v) eqn:F; cbn [negb orb static_assert bind].
    - rewrite (ext_fix v F). destruct (N.leb_spec n (N.of_nat (count v))) as [L|L]; cbn [static_assert Expects bind]; [exact (G L)|reflexivity].
    - destruct (N.leb_spec n (N.of_nat (count v))) as [L|L]; cbn [static_assert Expects bind]; [exact (G L)|reflexivity].
  Qed.
  Lemma lastT_ok n :
    lastT m (repr v) n = gate (fits v 0 (Some n)) (Done (repr (part (count v - N.to_nat n) (N.to_nat n) true v))).
  Proof using S W.
    unfold lastT, gate. rewrite (size_repr m), (ext_dyn m), fits_0 by assumption.
    assert (G : (n <= N.of_nat (count v))%N ->
      (do p := padd m (data (repr v)) (Z.of_N (usub 64 (N.of_nat (count v)) n)) in span_count n p n) =
      Done (repr (part (count v - N.to_nat n) (N.to_nat n) true v))).
    { intros L. unfold repr at 1. cbn [data]. rewrite usub_le by (nums; lia).
      rewrite (padd_ok m _ _ (count v)) by (try assumption; lia). cbn [bind].
      replace (Z.to_nat (Z.of_N (N.of_nat (count v) - n))) with (count v - N.to_nat n)%nat by lia.
      rewrite <- (N2Nat.id n) at 1 3.
      rewrite count_fixed by (apply (in_part m _ _ (count v)); [assumption|lia]). reflexivity. }
    destruct (fixed v) eqn:F; cbn [negb orb static_assert bind].
    - rewrite (ext_fix v F). destruct (N.leb_spec n (N.of_nat (count v))) as [L|L]; cbn [static_assert Expects bind]; [exact (G L)|reflexivity].
    - destruct (N.leb_spec n (N.of_nat (count v))) as [L|L]; cbn [static_assert Expects bind]; [exact (G L)|reflexivity].
  Qed.
  Lemma subspanT_ok o n : is_count n -> (o < 2 ^ 64)%N ->
    subspanT m (repr v) o (extent_arg n) =
    gate (fits v o n) (Done (repr (part (N.to_nat o) (part_size v o n) (match n with Some _ => true | None => fixed v end) v))).
  Proof using S W.
    intros Hn Ho. unfold subspanT, gate. rewrite (size_repr m), (ext_dyn m) by assumption.
    set (dn := (extent_arg n =? dynamic_extent)%N).
    assert (D : dn = match n with Some _ => false | None => true end).
    { unfold dn. destruct n as [n|]; cbn [extent_arg is_count] in *; [|reflexivity].
      destruct (N.eqb_spec n dynamic_extent); [nums; lia|reflexivity]. }
    assert (F1 : ((o <=? N.of_nat (count v))%N && (dn || (extent_arg n <=? N.of_nat (count v) - o)%N)) = fits v o n).
    { unfold fits. rewrite D. destruct (N.leb_spec o (N.of_nat (count v))); cbn [andb]; [|reflexivity].
      destruct n as [n|]; cbn [orb extent_arg]; [|reflexivity].
      destruct (N.leb_spec (o + n) (N.of_nat (count v))), (N.leb_spec n (N.of_nat (count v) - o)); lia || reflexivity. }
    assert (F2 : ((o <=? N.of_nat (count v))%N && (dn || (extent_arg n <=? usub 64 (N.of_nat (count v)) o)%N)) = fits v o n).
    { rewrite <- F1. destruct (N.leb_spec o (N.of_nat (count v))); cbn [andb]; [|reflexivity].
      rewrite usub_le by (nums; lia). reflexivity. }
    assert (FS : fits v o n = true -> (N.to_nat o + part_size v o n <= count v)%nat).
    { unfold fits, part_size. intros H. apply andb_true_iff in H. destruct H as [H1 H2]. apply N.leb_le in H1.
      destruct n as [n|]; [apply N.leb_le in H2|]; lia. }
    assert (P : fits v o n = true -> padd m (data (repr v)) (Z.of_N o) = Done (ptr_of (array v) (start v + N.to_nat o))).
    { intros H. specialize (FS H). unfold repr. cbn [data]. rewrite (padd_ok m _ _ (count v)) by (try assumption; lia). do 3 f_equal. lia. }
    assert (CN : fits v o n = true ->
      (if dn then usub 64 (N.of_nat (count v)) o else extent_arg n) = N.of_nat (part_size v o n)).
    { intros H. specialize (FS H). rewrite D. unfold part_size in *. destruct n as [n|]; cbn [extent_arg].
      - lia.
      - rewrite usub_le by (nums; lia). lia. }
    rewrite F2.
    destruct (fixed v) eqn:F; cbn [negb orb static_assert bind].
    - rewrite (ext_fix v F), F1. destruct (fits v o n) eqn:FE; cbn [static_assert Expects bind]; [|reflexivity].
      rewrite P by reflexivity. cbn [bind]. rewrite CN by reflexivity.
      replace (if negb dn then extent_arg n else (N.of_nat (count v) - o)%N) with (N.of_nat (part_size v o n)).
      2:{ specialize (FS eq_refl). rewrite D. unfold part_size in *. destruct n as [n|]; cbn [negb extent_arg]; lia. }
      rewrite count_fixed by (apply (in_part m _ _ (count v)); [assumption|apply FS; reflexivity]).
      unfold part. destruct n; reflexivity.
    - destruct (fits v o n) eqn:FE; cbn [static_assert Expects bind]; [|reflexivity].
      rewrite P by reflexivity. cbn [bind]. rewrite CN by reflexivity. rewrite D.
      specialize (FS eq_refl). destruct n as [n|]; cbn [negb extent_arg].
      + replace n with (N.of_nat (part_size v o (Some n))) at 1 by (unfold part_size; lia).
        rewrite count_fixed by (apply (in_part m _ _ (count v)); [assumption|exact FS]). reflexivity.
      + unfold repr at 1, ext_of. rewrite F. cbn [Extent].
        rewrite (span_count_dyn m) by first [assumption | apply (in_part m _ _ (count v)); [assumption|exact FS]]. reflexivity.
  Qed.

  Lemma load_ok k a n : in_array m a k n -> (0 < n)%nat -> load m (ptr_of a k) = Done (element m a k).
  Proof.
    clear. unfold in_array, load, ptr_of, element, array_size. intros H L. destruct a as [a|]; [|lia].
    destruct (Z.leb_spec 0 (Z.of_nat k)); [|lia]. destruct (Z.ltb_spec (Z.of_nat k) (Z.of_nat (length (nth a m [])))); [|lia].
    cbn [andb]. rewrite Nat2Z.id. reflexivity.
  Qed.
  Lemma store_ok k a n x : in_array m a k n -> (0 < n)%nat -> store m (ptr_of a k) x = Done (write m a k x).
  Proof.
    clear. unfold in_array, store, ptr_of, write, array_size. intros H L. destruct a as [a|]; [|lia].
    destruct (Z.leb_spec 0 (Z.of_nat k)); [|lia]. destruct (Z.ltb_spec (Z.of_nat k) (Z.of_nat (length (nth a m [])))); [|lia].
    cbn [andb]. rewrite Nat2Z.id. reflexivity.
  Qed.

  Lemma subscript_ok i :
    subscript m (repr v) i =
    if (i <? N.of_nat (count v))%N then Done (ptr_of (array v) (start v + N.to_nat i)) else Terminates.
  Proof using S W.
    unfold subscript. rewrite (size_repr m) by assumption.
    destruct (N.ltb_spec i (N.of_nat (count v))); cbn [Expects bind]; [|reflexivity].
    unfold repr. cbn [data]. rewrite (padd_ok m _ _ (count v)) by (try assumption; lia). do 3 f_equal. lia.
  Qed.
  Lemma front_ok : front m (repr v) = if (0 <? count v)%nat then Done (ptr_of (array v) (start v)) else Terminates.
  Proof using S W.
    unfold front. rewrite (size_repr m) by assumption.
    destruct (Nat.ltb_spec 0 (count v)), (N.ltb_spec 0 (N.of_nat (count v))); try lia; cbn [Expects bind]; [|reflexivity].
    unfold repr. cbn [data]. rewrite (padd_ok m _ _ (count v)) by (try assumption; lia). do 2 f_equal. lia.
  Qed.
  Lemma back_ok : back m (repr v) = if (0 <? count v)%nat then Done (ptr_of (array v) (start v + (count v - 1))) else Terminates.
  Proof using S W.
    unfold back. rewrite (size_repr m) by assumption.
    destruct (Nat.ltb_spec 0 (count v)), (N.ltb_spec 0 (N.of_nat (count v))); try lia; cbn [Expects bind]; [|reflexivity].
    unfold repr. cbn [data]. rewrite usub_le by (nums; lia).
    rewrite (padd_ok m _ _ (count v)) by (try assumption; lia). do 3 f_equal. lia.
  Qed.
  Lemma at_ok i : is_distance i ->
    at_ m (repr v) i = if (0 <=? i) && (i <? Z.of_nat (count v)) then Done (ptr_of (array v) (start v + Z.to_nat i)) else Terminates.
  Proof using S W.
    intros Hi. unfold at_. destruct (Z.leb_spec 0 i) as [L|L]; cbn [Expects bind andb]; [|reflexivity].
    rewrite subscript_ok. unfold to_size, is_distance in *. nums. rewrite Z.mod_small by lia.
    destruct (Z.ltb_spec i (Z.of_nat (count v))), (N.ltb_spec (Z.to_N i) (N.of_nat (count v))); try lia; [|reflexivity].
    do 3 f_equal. lia.
  Qed.
  Lemma ssize_ok : ssize (repr v) = Z.of_nat (count v).
  Proof using S W.
    unfold ssize, to_distance. rewrite (size_repr m) by assumption.
    destruct (N.ltb_spec (N.of_nat (count v)) (2 ^ 63)); [lia|]. nums. lia.
  Qed.
  Lemma size_bytes_ok sz : (N.of_nat (count v) * sz < 2 ^ 64)%N ->
    Z.of_N (size_bytes sz (repr v)) = Z.of_nat (count v) * Z.of_N sz.
  Proof using S W.
    intros H. unfold size_bytes, umul. rewrite (size_repr m) by assumption. rewrite trunc_mod, N.mod_small by exact H. lia.
  Qed.
End Ops2.

(** ** Iterators *)

Lemma peq_same m a k n i j : in_array m a k n -> (i <= n)%nat -> (j <= n)%nat ->
  peq (ptr_of a (k + i)) (ptr_of a (k + j)) = (i =? j)%nat.
Proof.
  unfold in_array, peq, ptr_of. destruct a as [a|]; intros W Hi Hj.
  - rewrite Nat.eqb_refl. cbn [andb].
    destruct (Z.eqb_spec (Z.of_nat (k + i)) (Z.of_nat (k + j))), (Nat.eqb_spec i j); lia || reflexivity.
  - destruct (Nat.eqb_spec i j); [reflexivity|lia].
Qed.
Lemma pdiff_same m a k n i j : in_array m a k n -> (i <= n)%nat -> (j <= n)%nat ->
  pdiff (ptr_of a (k + i)) (ptr_of a (k + j)) = Done (Z.of_nat i - Z.of_nat j).
Proof.
  unfold in_array, pdiff, ptr_of. destruct a as [a|]; intros W Hi Hj.
  - rewrite Nat.eqb_refl. f_equal. lia.
  - f_equal. lia.
Qed.

Section Iter.
  Variables (m : arrays) (c : cursor).
  Hypothesis (W : wf_cursor m c).

  Let WA : in_array m (over c) (from c) (len c).
  Proof. exact (proj1 W). Qed.
  Let WP : (place c <= len c)%nat.
  Proof. exact (proj2 W). Qed.

  Lemma from_0 : ptr_of (over c) (from c) = ptr_of (over c) (from c + 0).
  Proof. now rewrite Nat.add_0_r. Qed.

  Lemma deref_ok :
    deref (repr_cursor c) = if (place c <? len c)%nat then Done (ptr_of (over c) (from c + place c)) else Terminates.
  Proof using W.
    unfold deref, repr_cursor. cbn [current_ end_].
    rewrite (peq_same m _ _ (len c)) by (assumption || lia).
    destruct (Nat.eqb_spec (place c) (len c)), (Nat.ltb_spec (place c) (len c)); try lia; reflexivity.
  Qed.
  Lemma step_ok n : 0 <= Z.of_nat (place c) + n <= Z.of_nat (len c) ->
    padd m (ptr_of (over c) (from c + place c)) n = Done (ptr_of (over c) (from c + Z.to_nat (Z.of_nat (place c) + n))).
  Proof using W.
    intros H. destruct (over c) as [a|] eqn:O.
    - unfold ptr_of. unfold in_array in WA. rewrite padd_Done by lia. do 2 f_equal. lia.
    - unfold in_array in WA. replace n with 0 by lia. reflexivity.
  Qed.
  Lemma repr_place p : repr_cursor (place_at c p) =
    mkIterator (ptr_of (over c) (from c)) (ptr_of (over c) (from c + len c)) (ptr_of (over c) (from c + p)).
  Proof. reflexivity. Qed.

  Definition shift (n : Z) : outcome iterator :=
    let p := Z.of_nat (place c) + n in
    if (0 <=? p) && (p <=? Z.of_nat (len c)) then Done (repr_cursor (place_at c (Z.to_nat p))) else Terminates.

  Lemma increment_ok : increment m (repr_cursor c) = shift 1.
  Proof using W.
    unfold increment, shift. cbn zeta. unfold repr_cursor at 1 2. cbn [current_ end_].
    rewrite (peq_same m _ _ (len c)) by (assumption || lia).
    destruct (Nat.eqb_spec (place c) (len c)) as [E|E]; cbn [negb Expects bind].
    - destruct (Z.leb_spec (Z.of_nat (place c) + 1) (Z.of_nat (len c))); [lia|]. rewrite andb_false_r. reflexivity.
    - destruct (Z.leb_spec 0 (Z.of_nat (place c) + 1)); [|lia].
      destruct (Z.leb_spec (Z.of_nat (place c) + 1) (Z.of_nat (len c))); [|lia]. cbn [andb].
      unfold repr_cursor at 1. cbn [current_]. rewrite step_ok by lia. reflexivity.
  Qed.
  Lemma decrement_ok : decrement m (repr_cursor c) = shift (-1).
  Proof using W.
    unfold decrement, shift. cbn zeta. unfold repr_cursor at 1 2. cbn [current_ begin_].
    rewrite from_0, (peq_same m _ _ (len c)) by (assumption || lia).
    destruct (Nat.eqb_spec 0 (place c)) as [E|E]; cbn [negb Expects bind].
    - destruct (Z.leb_spec 0 (Z.of_nat (place c) + -1)); [lia|]. reflexivity.
    - destruct (Z.leb_spec 0 (Z.of_nat (place c) + -1)); [|lia].
      destruct (Z.leb_spec (Z.of_nat (place c) + -1) (Z.of_nat (len c))); [|lia]. cbn [andb].
      unfold repr_cursor at 1. cbn [current_]. rewrite step_ok by lia. reflexivity.
  Qed.

  Lemma nulls n :
    (n =? 0) || (negb (pnull (ptr_of (over c) (from c))) && negb (pnull (ptr_of (over c) (from c + place c))) &&
                 negb (pnull (ptr_of (over c) (from c + len c)))) =
    (n =? 0) || match over c with Some _ => true | None => false end.
  Proof. destruct (over c); reflexivity. Qed.

  Lemma advance_ok n : n <> - 2 ^ 63 -> advance m (repr_cursor c) n = shift n.
  Proof using W.
    intros Hn. unfold advance, repr_cursor. cbn [begin_ end_ current_]. rewrite nulls.
    destruct ((n =? 0) || match over c with Some _ => true | None => false end) eqn:NN; cbn [Expects bind].
    - unfold at_least. rewrite from_0, !(pdiff_same m _ _ (len c)) by (assumption || lia). cbn [bind].
      unfold shift. cbn zeta.
      destruct (Z.ltb_spec 0 n) as [L|L].
      + destruct (Z.ltb_spec n 0); [lia|].
        destruct (Z.leb_spec n (Z.of_nat (len c) - Z.of_nat (place c))) as [A|A]; cbn [Expects bind].
        * destruct (Z.leb_spec 0 (Z.of_nat (place c) + n)); [|lia].
          destruct (Z.leb_spec (Z.of_nat (place c) + n) (Z.of_nat (len c))); [|lia]. cbn [andb].
          rewrite step_ok by lia. rewrite <- from_0. reflexivity.
        * destruct (Z.leb_spec (Z.of_nat (place c) + n) (Z.of_nat (len c))); [lia|]. rewrite andb_false_r. reflexivity.
      + cbn [bind]. destruct (Z.ltb_spec n 0) as [L2|L2].
        * unfold neg. destruct (Z.eqb_spec n (- 2 ^ 63)); [contradiction|]. cbn [bind].
          destruct (Z.leb_spec (- n) (Z.of_nat (place c) - Z.of_nat 0)) as [A|A]; cbn [Expects bind].
          -- destruct (Z.leb_spec 0 (Z.of_nat (place c) + n)); [|lia].
             destruct (Z.leb_spec (Z.of_nat (place c) + n) (Z.of_nat (len c))); [|lia]. cbn [andb].
             rewrite step_ok by lia. rewrite <- from_0. reflexivity.
          -- destruct (Z.leb_spec 0 (Z.of_nat (place c) + n)); [lia|]. reflexivity.
        * cbn [bind]. destruct (Z.leb_spec 0 (Z.of_nat (place c) + n)); [|lia].
          destruct (Z.leb_spec (Z.of_nat (place c) + n) (Z.of_nat (len c))); [|lia]. cbn [andb].
          rewrite step_ok by lia. rewrite <- from_0. reflexivity.
    - apply orb_false_iff in NN. destruct NN as [N0 N1]. apply Z.eqb_neq in N0.
      unfold in_array in WA. destruct (over c); [discriminate|].
      unfold shift. cbn zeta. destruct (Z.leb_spec 0 (Z.of_nat (place c) + n)); [|reflexivity].
      destruct (Z.leb_spec (Z.of_nat (place c) + n) (Z.of_nat (len c))); [lia|]. reflexivity.
  Qed.
  Lemma retreat_ok n : n <> - 2 ^ 63 -> retreat m (repr_cursor c) n = shift (- n).
  Proof using W.
    intros Hn. unfold retreat, repr_cursor. cbn [begin_ end_ current_]. rewrite nulls.
    destruct ((n =? 0) || match over c with Some _ => true | None => false end) eqn:NN; cbn [Expects bind].
    - unfold at_least. rewrite from_0, !(pdiff_same m _ _ (len c)) by (assumption || lia). cbn [bind].
      unfold shift. cbn zeta.
      destruct (Z.ltb_spec 0 n) as [L|L].
      + destruct (Z.ltb_spec n 0); [lia|].
        destruct (Z.leb_spec n (Z.of_nat (place c) - Z.of_nat 0)) as [A|A]; cbn [Expects bind].
        * destruct (Z.leb_spec 0 (Z.of_nat (place c) + - n)); [|lia].
          destruct (Z.leb_spec (Z.of_nat (place c) + - n) (Z.of_nat (len c))); [|lia]. cbn [andb].
          rewrite step_ok by lia. rewrite <- from_0. reflexivity.
        * destruct (Z.leb_spec 0 (Z.of_nat (place c) + - n)); [lia|]. reflexivity.
      + cbn [bind]. destruct (Z.ltb_spec n 0) as [L2|L2].
        * unfold neg. destruct (Z.eqb_spec n (- 2 ^ 63)); [contradiction|]. cbn [bind].
          destruct (Z.leb_spec (- n) (Z.of_nat (len c) - Z.of_nat (place c))) as [A|A]; cbn [Expects bind].
          -- destruct (Z.leb_spec 0 (Z.of_nat (place c) + - n)); [|lia].
             destruct (Z.leb_spec (Z.of_nat (place c) + - n) (Z.of_nat (len c))); [|lia]. cbn [andb].
             rewrite step_ok by lia. rewrite <- from_0. reflexivity.
          -- destruct (Z.leb_spec (Z.of_nat (place c) + - n) (Z.of_nat (len c))); [lia|]. rewrite andb_false_r. reflexivity.
        * cbn [bind]. destruct (Z.leb_spec 0 (Z.of_nat (place c) + - n)); [|lia].
          destruct (Z.leb_spec (Z.of_nat (place c) + - n) (Z.of_nat (len c))); [|lia]. cbn [andb].
          rewrite step_ok by lia. rewrite <- from_0. reflexivity.
    - apply orb_false_iff in NN. destruct NN as [N0 N1]. apply Z.eqb_neq in N0.
      unfold in_array in WA. destruct (over c); [discriminate|].
      unfold shift. cbn zeta. destruct (Z.leb_spec 0 (Z.of_nat (place c) + - n)); [|reflexivity].
      destruct (Z.leb_spec (Z.of_nat (place c) + - n) (Z.of_nat (len c))); [lia|]. reflexivity.
  Qed.
End Iter.

Lemma wf_place m c p : wf_cursor m c -> (p <= len c)%nat -> wf_cursor m (place_at c p).
Proof. intros [A _] H. split; [exact A|exact H]. Qed.

Lemma same_span_ok m c d : wf_cursor m c -> wf_cursor m d -> same_span (repr_cursor c) (repr_cursor d) = same_range c d.
Proof.
  intros [A _] [B _]. unfold same_span, same_range, repr_cursor, in_array, ptr_of, peq in *. cbn [begin_ end_].
  destruct (over c) as [a|], (over d) as [b|]; try reflexivity.
  - destruct (Nat.eqb_spec a b); [|reflexivity]. cbn [andb].
    destruct (Z.eqb_spec (Z.of_nat (from c)) (Z.of_nat (from d))), (Nat.eqb_spec (from c) (from d)); try (exfalso; lia); [|reflexivity].
    cbn [andb]. destruct (Z.eqb_spec (Z.of_nat (from c + len c)) (Z.of_nat (from d + len d))), (Nat.eqb_spec (len c) (len d)); lia || reflexivity.
  - destruct A as [-> ->], B as [-> ->]. reflexivity.
Qed.
Lemma same_range_eq c d : same_range c d = true -> over c = over d /\ from c = from d /\ len c = len d.
Proof.
  unfold same_range. rewrite !andb_true_iff, !Nat.eqb_eq. intros [[O F] L]. repeat split; try assumption.
  destruct (over c), (over d); try discriminate; [|reflexivity]. apply Nat.eqb_eq in O. now subst.
Qed.
Lemma same_range_sym c d : same_range c d = same_range d c.
Proof.
  unfold same_range. rewrite (Nat.eqb_sym (from c)), (Nat.eqb_sym (len c)).
  destruct (over c) as [a|], (over d) as [b|]; try reflexivity. rewrite (Nat.eqb_sym a). reflexivity.
Qed.

Section Two.
  Variables (m : arrays) (c d : cursor).
  Hypotheses (C : wf_cursor m c) (D : wf_cursor m d).

  Lemma distance_ok :
    distance (repr_cursor c) (repr_cursor d) = if same_range c d then Done (Z.of_nat (place c) - Z.of_nat (place d)) else Terminates.
  Proof using C D.
    unfold distance. rewrite (same_span_ok m) by assumption. destruct (same_range c d) eqn:E; cbn [Expects bind]; [|reflexivity].
    apply same_range_eq in E. destruct E as (EO & EF & EL). unfold repr_cursor. cbn [current_]. rewrite <- EO, <- EF.
    destruct C, D. apply (pdiff_same m _ _ (len c)); [assumption|assumption|lia].
  Qed.
  Lemma iterator_eq_ok :
    iterator_eq (repr_cursor c) (repr_cursor d) = if same_range c d then Done (place c =? place d)%nat else Terminates.
  Proof using C D.
    unfold iterator_eq. rewrite (same_span_ok m) by assumption. destruct (same_range c d) eqn:E; cbn [Expects bind]; [|reflexivity].
    apply same_range_eq in E. destruct E as (EO & EF & EL). unfold repr_cursor. cbn [current_]. rewrite <- EO, <- EF.
    destruct C, D. f_equal. apply (peq_same m _ _ (len c)); [assumption|assumption|lia].
  Qed.
  Lemma iterator_lt_ok :
    iterator_lt (repr_cursor c) (repr_cursor d) = if same_range c d then Done (place c <? place d)%nat else Terminates.
  Proof using C D.
    unfold iterator_lt. rewrite (same_span_ok m) by assumption. destruct (same_range c d) eqn:E; cbn [Expects bind]; [|reflexivity].
    apply same_range_eq in E. destruct E as (EO & EF & EL). unfold repr_cursor, plt. cbn [current_]. rewrite <- EO, <- EF.
    destruct C, D. rewrite (pdiff_same m _ _ (len c)); [|assumption|assumption|lia]. cbn [bind]. f_equal.
    destruct (Z.ltb_spec (Z.of_nat (place c) - Z.of_nat (place d)) 0), (Nat.ltb_spec (place c) (place d)); lia || reflexivity.
  Qed.
End Two.

Lemma iterator_compare_ok m r c d : wf_cursor m c -> wf_cursor m d ->
  iterator_compare r (repr_cursor c) (repr_cursor d) =
  if same_range c d then Done (compare_places r (place c) (place d)) else Terminates.
Proof.
  intros C D. destruct r; cbn [iterator_compare compare_places];
    rewrite ?(iterator_eq_ok m), ?(iterator_lt_ok m) by assumption; rewrite ?(same_range_sym d c);
    destruct (same_range c d); cbn [bind]; try reflexivity; f_equal.
  - destruct (Nat.ltb_spec (place d) (place c)), (Nat.leb_spec (place c) (place d)); lia || reflexivity.
  - destruct (Nat.ltb_spec (place c) (place d)), (Nat.leb_spec (place d) (place c)); lia || reflexivity.
Qed.

Section Begin.
  Variables (m : arrays) (v : view).
  Hypotheses (S : small m) (W : wf_view m v).

  Lemma wf_cursor_at k : (k <= count v)%nat -> wf_cursor m (cursor_at v k).
  Proof using W. intros H. split; [exact W|exact H]. Qed.

  Lemma iterator_new_ok k : (k <= count v)%nat ->
    iterator_new (ptr_of (array v) (start v)) (ptr_of (array v) (start v + count v)) (ptr_of (array v) (start v + k)) =
    Done (repr_cursor (cursor_at v k)).
  Proof using W.
    intros H. unfold iterator_new, ple. rewrite <- (Nat.add_0_r (start v)) at 1.
    rewrite !(pdiff_same m _ _ (count v)) by (assumption || lia). cbn [bind].
    destruct (Z.leb_spec (Z.of_nat 0 - Z.of_nat k) 0); [|lia].
    destruct (Z.leb_spec (Z.of_nat k - Z.of_nat (count v)) 0); [|lia]. reflexivity.
  Qed.
  Lemma data_end : padd m (data (repr v)) (Z.of_N (size (repr v))) = Done (ptr_of (array v) (start v + count v)).
  Proof using S W.
    rewrite (size_repr m) by assumption. unfold repr. cbn [data].
    rewrite (padd_ok m _ _ (count v)) by (try assumption; lia). do 3 f_equal. lia.
  Qed.
  Lemma begin_ok : begin m (repr v) = Done (repr_cursor (cursor_at v 0)).
  Proof using S W.
    unfold begin. rewrite data_end. cbn [bind]. unfold repr. cbn [data].
    rewrite <- (Nat.add_0_r (start v)) at 3. apply iterator_new_ok. lia.
  Qed.
  Lemma end_ok : end__ m (repr v) = Done (repr_cursor (cursor_at v (count v))).
  Proof using S W. unfold end__. rewrite data_end. cbn [bind]. unfold repr. cbn [data]. apply iterator_new_ok. lia. Qed.

  Lemma content_length : length (content m v) = count v.
  Proof using W.
    unfold content, wf_view, in_array in *. destruct (array v); [|cbn; lia].
    rewrite firstn_length, skipn_length. lia.
  Qed.
  Lemma nth_content i : (i < count v)%nat -> element m (array v) (start v + i) = nth i (content m v) 0%N.
  Proof using W.
    clear S. intros H. unfold content, element, wf_view, in_array in *. destruct (array v) as [a|]; [|lia].
    set (l := nth a m []) in *. clearbody l.
    rewrite <- (firstn_skipn (start v) l) at 1. rewrite app_nth2; rewrite firstn_length; [|lia].
    replace (start v + i - Nat.min (start v) (length l))%nat with i by lia.
    rewrite <- (firstn_skipn (count v) (skipn (start v) l)) at 1. rewrite app_nth1; [reflexivity|].
    rewrite firstn_length, skipn_length. lia.
  Qed.
End Begin.

Lemma skipn_cons {A} (d : A) l i : (i < length l)%nat -> skipn i l = nth i l d :: skipn (Datatypes.S i) l.
Proof. revert i; induction l as [|x l IH]; intros i H; [cbn in H; lia|]. destruct i; [reflexivity|]. cbn in *. apply IH. lia. Qed.

Lemma same_range_refl v i j : same_range (cursor_at v i) (cursor_at v j) = true.
Proof. unfold same_range, cursor_at. cbn. destruct (array v); rewrite ?Nat.eqb_refl; reflexivity. Qed.

Section Compare.
  Variables (m : arrays) (v w : view).
  Hypotheses (S : small m) (V : wf_view m v) (W : wf_view m w).

  Lemma shift_next u i : (i < count u)%nat -> shift (cursor_at u i) 1 = Done (repr_cursor (cursor_at u (Datatypes.S i))).
  Proof.
    clear. intros H. unfold shift, cursor_at. cbn [place len over from]. cbn zeta.
    destruct (Z.leb_spec 0 (Z.of_nat i + 1)); [|lia]. destruct (Z.leb_spec (Z.of_nat i + 1) (Z.of_nat (count u))); [|lia].
    cbn [andb]. unfold place_at. cbn [over from len]. do 3 f_equal. lia.
  Qed.
  Lemma deref_at u i : wf_view m u -> (i < count u)%nat ->
    deref (repr_cursor (cursor_at u i)) = Done (ptr_of (array u) (start u + i)).
  Proof.
    clear. intros U H. rewrite (deref_ok m) by (apply wf_cursor_at; [assumption|lia]).
    cbn [cursor_at place len over from]. destruct (Nat.ltb_spec i (count u)); [reflexivity|lia].
  Qed.
  Lemma load_at u i : wf_view m u -> (i < count u)%nat ->
    load m (ptr_of (array u) (start u + i)) = Done (nth i (content m u) 0%N).
  Proof.
    clear. intros U H. rewrite (load_ok m _ _ (count u - i)); [|apply (in_part m _ _ (count u)); [exact U|lia]|lia].
    f_equal. apply nth_content; assumption.
  Qed.

  Lemma equal_loop_ok k : forall i j fuel, (i + k = count v)%nat -> (j + k = count w)%nat -> (k < fuel)%nat ->
    equal_loop m fuel (repr_cursor (cursor_at v i)) (repr_cursor (cursor_at v (count v))) (repr_cursor (cursor_at w j)) =
    Done (same (skipn i (content m v)) (skipn j (content m w))).
  Proof using V W.
    induction k as [|k IH]; intros i j fuel Hi Hj Hf; (destruct fuel as [|fuel]; [lia|]); cbn [equal_loop].
    - rewrite (iterator_eq_ok m) by (apply wf_cursor_at; [assumption|lia]). rewrite same_range_refl. cbn [cursor_at place bind].
      destruct (Nat.eqb_spec i (count v)); [|lia].
      rewrite !skipn_all2 by (rewrite (content_length m) by assumption; lia). reflexivity.
    - rewrite (iterator_eq_ok m) by (apply wf_cursor_at; [assumption|lia]). rewrite same_range_refl. cbn [bind].
      change (place (cursor_at v i)) with i. change (place (cursor_at v (count v))) with (count v).
      destruct (Nat.eqb_spec i (count v)); [lia|].
      rewrite ?deref_at by (assumption || lia). cbn [bind]. rewrite ?load_at by (assumption || lia). cbn [bind].
      rewrite ?deref_at by (assumption || lia). cbn [bind]. rewrite ?load_at by (assumption || lia). cbn [bind].
      rewrite (skipn_cons 0%N (content m v) i) by (rewrite (content_length m) by assumption; lia).
      rewrite (skipn_cons 0%N (content m w) j) by (rewrite (content_length m) by assumption; lia).
      cbn [same]. destruct (N.eqb_spec (nth i (content m v) 0%N) (nth j (content m w) 0%N)); cbn [negb andb]; [|reflexivity].
      rewrite ?(increment_ok m) by (apply wf_cursor_at; [assumption|lia]). rewrite ?shift_next by lia. cbn [bind].
      rewrite ?(increment_ok m) by (apply wf_cursor_at; [assumption|lia]). rewrite ?shift_next by lia. cbn [bind].
      apply IH; lia.
  Qed.
  Lemma same_length l r : same l r = true -> length l = length r.
  Proof. clear. revert r; induction l as [|x l IH]; intros [|y r]; cbn; try discriminate; auto. rewrite andb_true_iff. intros [_ H]. f_equal. auto. Qed.
  Lemma span_eq_ok : span_eq m (repr v) (repr w) = Done (same (content m v) (content m w)).
  Proof using S V W.
    unfold span_eq. rewrite ?begin_ok by assumption. cbn [bind]. rewrite ?end_ok by assumption. cbn [bind].
    rewrite ?begin_ok by assumption. cbn [bind]. rewrite ?end_ok by assumption. cbn [bind].
    rewrite (distance_ok m) by (apply wf_cursor_at; [assumption|lia]). rewrite same_range_refl. cbn [bind].
    rewrite (distance_ok m) by (apply (wf_cursor_at m w); [assumption|lia]). rewrite same_range_refl. cbn [bind].
    change (place (cursor_at v (count v))) with (count v). change (place (cursor_at v 0)) with 0%nat.
    change (place (cursor_at w (count w))) with (count w). change (place (cursor_at w 0)) with 0%nat.
    destruct (Z.eqb_spec (Z.of_nat (count v) - Z.of_nat 0) (Z.of_nat (count w) - Z.of_nat 0)) as [E|E].
    - rewrite (size_repr m) by assumption. apply (equal_loop_ok (count v) 0 0); lia.
    - f_equal. destruct (same (content m v) (content m w)) eqn:SM; [|reflexivity].
      apply same_length in SM. rewrite !(content_length m) in SM by assumption. lia.
  Qed.
  Lemma less_loop_ok k : forall i j fuel, (i + k = count v)%nat -> (j <= count w)%nat -> (k < fuel)%nat ->
    less_loop m fuel (repr_cursor (cursor_at v i)) (repr_cursor (cursor_at v (count v)))
      (repr_cursor (cursor_at w j)) (repr_cursor (cursor_at w (count w))) =
    Done (before (skipn i (content m v)) (skipn j (content m w))).
  Proof using V W.
    induction k as [|k IH]; intros i j fuel Hi Hj Hf; (destruct fuel as [|fuel]; [lia|]); cbn [less_loop];
      rewrite (iterator_eq_ok m) by (apply wf_cursor_at; [assumption|lia]); rewrite same_range_refl; cbn [bind];
      rewrite (iterator_eq_ok m) by (apply wf_cursor_at; [assumption|lia]); rewrite same_range_refl; cbn [bind];
      change (place (cursor_at v i)) with i; change (place (cursor_at v (count v))) with (count v);
      change (place (cursor_at w j)) with j; change (place (cursor_at w (count w))) with (count w).
    - destruct (Nat.eqb_spec i (count v)); [|lia]. cbn [negb andb].
      rewrite (skipn_all2 (content m v)) by (rewrite (content_length m) by assumption; lia).
      destruct (Nat.eqb_spec j (count w)).
      + rewrite (skipn_all2 (content m w)) by (rewrite (content_length m) by assumption; lia). reflexivity.
      + rewrite (skipn_cons 0%N (content m w) j) by (rewrite (content_length m) by assumption; lia). reflexivity.
    - destruct (Nat.eqb_spec i (count v)); [lia|]. cbn [negb andb].
      rewrite (skipn_cons 0%N (content m v) i) by (rewrite (content_length m) by assumption; lia).
      destruct (Nat.eqb_spec j (count w)); cbn [negb].
      + rewrite (skipn_all2 (content m w)) by (rewrite (content_length m) by assumption; lia). reflexivity.
      + rewrite (skipn_cons 0%N (content m w) j) by (rewrite (content_length m) by assumption; lia).
        rewrite ?deref_at by (assumption || lia). cbn [bind]. rewrite ?load_at by (assumption || lia). cbn [bind].
        rewrite ?deref_at by (assumption || lia). cbn [bind]. rewrite ?load_at by (assumption || lia). cbn [bind before].
        destruct (N.ltb_spec (nth i (content m v) 0%N) (nth j (content m w) 0%N)); [reflexivity|].
        destruct (N.ltb_spec (nth j (content m w) 0%N) (nth i (content m v) 0%N)); cbn [orb].
        * destruct (N.eqb_spec (nth i (content m v) 0%N) (nth j (content m w) 0%N)); [lia|]. reflexivity.
        * destruct (N.eqb_spec (nth i (content m v) 0%N) (nth j (content m w) 0%N)); [|lia]. cbn [andb].
          rewrite ?(increment_ok m) by (apply wf_cursor_at; [assumption|lia]). rewrite ?shift_next by lia. cbn [bind].
          rewrite ?(increment_ok m) by (apply wf_cursor_at; [assumption|lia]). rewrite ?shift_next by lia. cbn [bind].
          apply IH; lia.
  Qed.
  Lemma span_lt_ok : span_lt m (repr v) (repr w) = Done (before (content m v) (content m w)).
  Proof using S V W.
    unfold span_lt. rewrite ?begin_ok by assumption. cbn [bind]. rewrite ?end_ok by assumption. cbn [bind].
    rewrite ?begin_ok by assumption. cbn [bind]. rewrite ?end_ok by assumption. cbn [bind].
    rewrite (size_repr m) by assumption. apply (less_loop_ok (count v) 0 0); lia.
  Qed.
End Compare.

Lemma ext_eqb m v w : small m -> wf_view m v -> wf_view m w ->
  (Extent (repr v) =? Extent (repr w))%N = eqb (fixed v) (fixed w) && (negb (fixed v) || (count v =? count w)%nat).
Proof.
  intros S V W. pose proof (count_small _ _ S V). pose proof (count_small _ _ S W).
  unfold repr, ext_of. cbn [Extent]. destruct (fixed v), (fixed w); cbn [eqb negb orb andb].
  - destruct (N.eqb_spec (N.of_nat (count v)) (N.of_nat (count w))), (Nat.eqb_spec (count v) (count w)); lia || reflexivity.
  - destruct (N.eqb_spec (N.of_nat (count v)) dynamic_extent); [nums; lia|reflexivity].
  - destruct (N.eqb_spec dynamic_extent (N.of_nat (count w))); [nums; lia|reflexivity].
  - apply N.eqb_refl.
Qed.
Lemma span_compare_ok m r v w : small m -> wf_view m v -> wf_view m w ->
  span_compare r m (repr v) (repr w) =
  if match r with Eq => true | _ => eqb (fixed v) (fixed w) && (negb (fixed v) || (count v =? count w)%nat) end
  then Done (compare r (content m v) (content m w)) else IllFormed.
Proof.
  intros S V W. unfold span_compare. rewrite (ext_eqb m) by assumption.
  destruct (match r with Eq => true | _ => _ end); cbn [static_assert bind]; [|reflexivity].
  destruct r; cbn [compare]; rewrite ?span_eq_ok, ?span_lt_ok by assumption; reflexivity.
Qed.
