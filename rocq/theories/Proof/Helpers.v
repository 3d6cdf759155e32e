(** The helpers of gsl. *)
From Coq Require Import List NArith ZArith Arith Bool Lia Permutation.
From Verif.Spec Require Import View Helpers.
From Verif.Model Require Import Span Helpers.
From Verif.Proof Require Import Span SpanRun.
Import ListNotations.
Local Open Scope Z_scope.

(** ** narrow *)

Definition real (t : int_type) : Prop := (0 < bits t)%N.

Lemma pow_half b : (0 < b)%N -> 2 ^ Z.of_N b = 2 * 2 ^ (Z.of_N b - 1).
Proof. intros H. rewrite <- Z.pow_succ_r by lia. f_equal. lia. Qed.

Lemma has_iff t z : has t z = true <-> lowest t <= z <= highest t.
Proof. unfold has. rewrite andb_true_iff, !Z.leb_le. tauto. Qed.

Lemma cast_has t z : real t -> has t (cast t z) = true.
Proof.
  intros R. apply has_iff. unfold cast, lowest, highest. pose proof (pow_half (bits t) R) as P.
  assert (Q : 0 < 2 ^ (Z.of_N (bits t) - 1)) by (apply Z.pow_pos_nonneg; unfold real in R; lia).
  pose proof (Z.mod_pos_bound z (2 ^ Z.of_N (bits t)) ltac:(lia)) as M. cbn zeta.
  set (r := z mod 2 ^ Z.of_N (bits t)) in *. clearbody r. rewrite P in *.
  destruct (signed t); cbn [andb]; [|lia].
  destruct (Z.leb_spec (2 ^ (Z.of_N (bits t) - 1)) r); lia.
Qed.
Lemma cast_mod t z : real t -> (cast t z - z) mod 2 ^ Z.of_N (bits t) = 0.
Proof.
  intros R. assert (Q : 0 < 2 ^ Z.of_N (bits t)) by (apply Z.pow_pos_nonneg; lia).
  unfold cast. cbn zeta.
  pose proof (Z.div_mod z (2 ^ Z.of_N (bits t)) ltac:(lia)) as D.
  destruct (signed t && _).
  - replace (z mod 2 ^ Z.of_N (bits t) - 2 ^ Z.of_N (bits t) - z) with ((- (z / 2 ^ Z.of_N (bits t)) - 1) * 2 ^ Z.of_N (bits t)) by lia.
    apply Z.mod_mul. lia.
  - replace (z mod 2 ^ Z.of_N (bits t) - z) with ((- (z / 2 ^ Z.of_N (bits t))) * 2 ^ Z.of_N (bits t)) by lia.
    apply Z.mod_mul. lia.
Qed.
Lemma cast_id t z : real t -> has t z = true -> cast t z = z.
Proof.
  intros R H. apply has_iff in H. pose proof (pow_half (bits t) R) as P.
  assert (Q : 0 < 2 ^ (Z.of_N (bits t) - 1)) by (apply Z.pow_pos_nonneg; unfold real in R; lia).
  unfold cast, lowest, highest in *. cbn zeta. destruct (signed t); cbn [andb].
  - destruct (Z.lt_ge_cases z 0) as [N|N].
    + replace (z mod 2 ^ Z.of_N (bits t)) with (z + 2 ^ Z.of_N (bits t)).
      * destruct (Z.leb_spec (2 ^ (Z.of_N (bits t) - 1)) (z + 2 ^ Z.of_N (bits t))); lia.
      * apply (Z.mod_unique_pos _ _ (-1)); lia.
    + rewrite Z.mod_small by lia. destruct (Z.leb_spec (2 ^ (Z.of_N (bits t) - 1)) z); lia.
  - apply Z.mod_small. lia.
Qed.

(** two values that are close and congruent are equal *)
Lemma congruent_eq M x y : 0 < M -> (x - y) mod M = 0 -> - M < x - y < M -> x = y.
Proof.
  intros HM H B. apply Z.mod_divide in H; [|lia]. destruct H as [q Hq]. assert (q = 0) by nia. nia.
Qed.
Lemma congruent_less M N x y : 0 < M -> 0 < N -> (N mod M = 0) -> (x - y) mod N = 0 -> (x - y) mod M = 0.
Proof.
  intros HM HN D H. apply Z.mod_divide in H; [|lia]. apply Z.mod_divide in D; [|lia]. apply Z.mod_divide; [lia|].
  exact (Z.divide_trans _ _ _ D H).
Qed.

Theorem narrow_ok T U u : real T -> real U -> has U u = true -> narrow T U u = if has T u then Some u else None.
Proof.
  intros RT RU HU. unfold narrow. cbn zeta. destruct (has T u) eqn:HT.
  - rewrite (cast_id T u RT HT), (cast_id U u RU HU), Z.eqb_refl. cbn [negb orb].
    rewrite xorb_nilpotent, andb_false_r. reflexivity.
  - destruct (negb (cast U (cast T u) =? u) || _) eqn:E; [reflexivity|]. exfalso.
    apply orb_false_iff in E. destruct E as [E1 E2]. apply negb_false_iff, Z.eqb_eq in E1.
    pose proof (cast_has T u RT) as CH. pose proof (cast_mod T u RT) as CM.
    pose proof (cast_mod U (cast T u) RU) as CU. rewrite E1 in CU.
    assert (EQ : cast T u = u).
    { set (t := cast T u) in *. clearbody t.
      apply has_iff in HU, CH.
      assert (PT : 0 < 2 ^ (Z.of_N (bits T) - 1)) by (apply Z.pow_pos_nonneg; unfold real in RT; lia).
      assert (PU : 0 < 2 ^ (Z.of_N (bits U) - 1)) by (apply Z.pow_pos_nonneg; unfold real in RU; lia).
      pose proof (pow_half (bits T) RT) as HT2. pose proof (pow_half (bits U) RU) as HU2.
      assert (SG : xorb (signed T) (signed U) = true -> 0 <= t /\ 0 <= u).
      { intros X. rewrite X in E2. cbn [andb] in E2. unfold lowest in *.
        destruct (signed T), (signed U); try discriminate;
          destruct (Z.ltb_spec t 0), (Z.ltb_spec u 0); try discriminate; lia. }
      destruct (Z.le_gt_cases (2 ^ Z.of_N (bits T)) (2 ^ Z.of_N (bits U))) as [L|L].
      - symmetry. apply (congruent_eq (2 ^ Z.of_N (bits U))); [lia|exact CU|].
        unfold lowest, highest in *.
        destruct (signed T), (signed U); cbn [xorb] in SG; try specialize (SG eq_refl); lia.
      - apply (congruent_eq (2 ^ Z.of_N (bits T))); [lia|exact CM|].
        unfold lowest, highest in *.
        destruct (signed T), (signed U); cbn [xorb] in SG; try specialize (SG eq_refl); lia. }
    rewrite EQ in CH. congruence.
Qed.

(** ** at *)

Theorem array_at_ok m a i : exist 1 m -> is_distance i ->
  array_at m a i =
  if (0 <=? i) && (i <? Z.of_nat (length (nth a m []))) then Done (element m (Some a) (Z.to_nat i)) else Terminates.
Proof.
  intros X I. pose proof (wf_small _ (wf_initially 1 m X) a) as S. cbn [initially mem] in S.
  unfold array_at, to_distance. cbn zeta.
  destruct (N.ltb_spec (N.of_nat (length (nth a m []))) (2 ^ 63)); [|nums; lia].
  rewrite nat_N_Z. destruct (Z.leb_spec 0 i) as [L|L]; cbn [andb Expects bind]; [|reflexivity].
  destruct (Z.ltb_spec i (Z.of_nat (length (nth a m [])))) as [L2|L2]; cbn [Expects bind]; [|reflexivity].
  unfold load, array_size, element, to_size, is_distance in *. nums. rewrite Z.mod_small by lia. rewrite Z2N.id by lia.
  destruct (Z.leb_spec 0 i); [|lia]. destruct (Z.ltb_spec i (Z.of_nat (length (nth a m [])))); [|lia]. reflexivity.
Qed.

(** ** copy *)

Lemma element_nth m b j : element m (Some b) j = nth j (nth b m []) 0%N.
Proof. reflexivity. Qed.

Lemma copy_n_ok a b n : forall m k j,
  (a < length m)%nat -> (b < length m)%nat ->
  (k + n <= length (nth a m []))%nat -> (j + n <= length (nth b m []))%nat ->
  (a <> b \/ (j <= k)%nat \/ (k + n <= j)%nat) ->
  exists m', copy_n m (At a (Z.of_nat k)) n (At b (Z.of_nat j)) = Done m' /\ shape m' = shape m /\
  (forall i, (i < n)%nat -> element m' (Some b) (j + i) = element m (Some a) (k + i)) /\
  (forall c i, ~ belongs b j n c i -> element m' (Some c) i = element m (Some c) i).
Proof.
  induction n as [|n IH]; intros m k j La Lb Lk Lj D.
  - exists m. repeat split; try reflexivity. intros i H. lia.
  - cbn [copy_n].
    change (At a (Z.of_nat k)) with (ptr_of (Some a) k). rewrite (load_ok m k (Some a) (Datatypes.S n)) by (try split; lia). cbn [bind].
    change (At b (Z.of_nat j)) with (ptr_of (Some b) j). rewrite (store_ok m j (Some b) (Datatypes.S n)) by (try split; lia). cbn [bind].
    set (x := element m (Some a) k). set (m1 := write m (Some b) j x).
    assert (SH : shape m1 = shape m) by apply write_shape.
    cbn [ptr_of].
    assert (L1 : length m1 = length m) by exact (shape_length _ _ SH).
    assert (L2 : forall c, length (nth c m1 []) = length (nth c m [])) by (intros c; exact (shape_nth _ _ c SH)).
    rewrite padd_Done by (rewrite ?L1, ?L2; lia). cbn [bind].
    rewrite padd_Done by (rewrite ?L1, ?L2; lia). cbn [bind].
    replace (Z.of_nat k + 1) with (Z.of_nat (Datatypes.S k)) by lia. replace (Z.of_nat j + 1) with (Z.of_nat (Datatypes.S j)) by lia.
    destruct (IH m1 (Datatypes.S k) (Datatypes.S j)) as (m' & E & S' & I' & O'); try (rewrite ?L1, ?L2; lia).
    exists m'. split; [exact E|]. split; [congruence|]. split.
    + intros [|i] H.
      * rewrite O' by (intros [_ Q]; lia). unfold m1. rewrite Nat.add_0_r, element_write, !Nat.eqb_refl, Nat.add_0_r. cbn [andb].
        destruct (Nat.ltb_spec b (length m)); [|lia]. destruct (Nat.ltb_spec j (length (nth b m []))); [|lia]. reflexivity.
      * replace (j + Datatypes.S i)%nat with (Datatypes.S j + i)%nat by lia. rewrite I' by lia.
        replace (Datatypes.S k + i)%nat with (k + Datatypes.S i)%nat by lia. unfold m1. rewrite element_write.
        destruct (Nat.eqb_spec b a) as [->|]; cbn [andb]; [|reflexivity].
        destruct (Nat.eqb_spec j (k + Datatypes.S i)); [lia|]. rewrite andb_false_r. reflexivity.
    + intros c i NB. rewrite O' by (intros [-> Q]; apply NB; split; [reflexivity|lia]).
      unfold m1. rewrite element_write. destruct (Nat.eqb_spec b c) as [<-|]; [|reflexivity].
      destruct (Nat.eqb_spec j i) as [<-|]; [|rewrite andb_false_r; reflexivity].
      exfalso. apply NB. split; [reflexivity|lia].
Qed.

Lemma size_dynamic p n : size (mkSpan dynamic_extent p n) = n.
Proof. reflexivity. Qed.
Theorem copy_ok m a k n b j r :
  (a < length m)%nat -> (b < length m)%nat ->
  (k + n <= length (nth a m []))%nat -> (j + r <= length (nth b m []))%nat ->
  (a <> b \/ (j <= k)%nat \/ (k + n <= j)%nat) ->
  let src := mkSpan dynamic_extent (At a (Z.of_nat k)) (N.of_nat n) in
  let dest := mkSpan dynamic_extent (At b (Z.of_nat j)) (N.of_nat r) in
  if (n <=? r)%nat then exists m', copy m src dest = Done m' /\ holds m' m b j (firstn n (skipn k (nth a m [])))
  else copy m src dest = Terminates.
Proof.
  intros La Lb Lk Lj D. cbv zeta. unfold copy. rewrite !size_dynamic. cbn [data].
  destruct (Nat.leb_spec n r) as [L|L].
  - destruct (N.leb_spec (N.of_nat n) (N.of_nat r)); [|lia]. cbn [Expects bind]. rewrite Nat2N.id.
    destruct (copy_n_ok a b n m k j La Lb Lk ltac:(lia) D) as (m' & E & S & I & O).
    exists m'. split; [exact E|]. split; [exact S|].
    assert (LN : length (firstn n (skipn k (nth a m []))) = n) by (rewrite firstn_length, skipn_length; lia).
    rewrite LN. split; [|exact O]. intros i Hi. rewrite (I i Hi), element_nth.
    rewrite <- (firstn_skipn k (nth a m [])) at 1. rewrite app_nth2 by (rewrite firstn_length; lia).
    rewrite firstn_length, Nat.min_l by lia. replace (k + i - k)%nat with i by lia.
    rewrite <- (firstn_skipn n (skipn k (nth a m []))) at 1. rewrite app_nth1 by lia. reflexivity.
  - destruct (N.leb_spec (N.of_nat n) (N.of_nat r)); [lia|]. reflexivity.
Qed.

(** ** byte *)

Lemma to_byte_small z : 0 <= z < 256 -> to_byte z = Z.to_N z.
Proof. intros H. unfold to_byte. now rewrite Z.mod_small. Qed.

Theorem byte_shl_ok b s : (b < 256)%N -> 0 <= s <= 24 -> byte_shl b s = Done (b * 2 ^ Z.to_N s mod 256)%N.
Proof.
  intros Hb Hs. unfold byte_shl.
  destruct (Z.leb_spec 0 s); [|lia]. destruct (Z.ltb_spec s 32); [|lia].
  assert (P : 2 ^ s <= 2 ^ 24) by (apply Z.pow_le_mono_r; lia). change (2 ^ 24) with 16777216 in P.
  change (2 ^ 32) with 4294967296.
  assert (P0 : 0 < 2 ^ s) by (apply Z.pow_pos_nonneg; lia).
  destruct (Z.ltb_spec (Z.of_N b * 2 ^ s) 4294967296); [|nia]. cbn [andb]. f_equal. unfold to_byte.
  apply N2Z.inj. rewrite Z2N.id by (apply Z.mod_pos_bound; lia).
  rewrite N2Z.inj_mod by lia. rewrite N2Z.inj_mul, N2Z.inj_pow, Z2N.id by lia. reflexivity.
Qed.
Theorem byte_shr_ok b s : (b < 256)%N -> 0 <= s < 32 -> byte_shr b s = Done (b / 2 ^ Z.to_N s)%N.
Proof.
  intros Hb Hs. unfold byte_shr. destruct (Z.leb_spec 0 s); [|lia]. destruct (Z.ltb_spec s 32); [|lia]. cbn [andb]. f_equal.
  rewrite Z.shiftr_div_pow2 by lia.
  assert (P0 : 0 < 2 ^ s) by (apply Z.pow_pos_nonneg; lia).
  assert (D : 0 <= Z.of_N b / 2 ^ s <= Z.of_N b) by (split; [apply Z.div_pos; lia|apply Z.div_le_upper_bound; nia]).
  rewrite to_byte_small by lia. apply N2Z.inj. rewrite Z2N.id by lia.
  rewrite N2Z.inj_div, N2Z.inj_pow, Z2N.id by lia. reflexivity.
Qed.
Lemma to_byte_bits z i : (i < 8)%N -> N.testbit (to_byte z) i = Z.testbit z (Z.of_N i).
Proof.
  intros H. unfold to_byte. rewrite <- Z.testbit_of_N. rewrite Z2N.id by (apply Z.mod_pos_bound; lia).
  change 256 with (2 ^ 8). rewrite Z.mod_pow2_bits_low by lia. reflexivity.
Qed.
Lemma to_byte_lt z : (to_byte z < 256)%N.
Proof. unfold to_byte. pose proof (Z.mod_pos_bound z 256 ltac:(lia)). lia. Qed.

(** ** final_action *)

Definition owned (gs : list (option final_action)) (g : nat) : list (nat * nat) :=
  match nth_error gs g with Some (Some o) => if invoke o then [(g, f o)] else [] | _ => [] end.
Definition key (g : nat) (x : nat * nat) : bool := (fst x =? g)%nat.

Lemma nth_error_replace {A} i j (x : A) l :
  nth_error (replace i x l) j = if Nat.eqb i j && (i <? length l)%nat then Some x else nth_error l j.
Proof.
  revert i j; induction l as [|y l IH]; intros [|i] [|j]; cbn; try reflexivity; try (rewrite andb_false_r; reflexivity).
  rewrite IH. reflexivity.
Qed.

Lemma key_pair g k a : key g (k, a) = (k =? g)%nat.
Proof. reflexivity. Qed.
Lemma handed_pair g h k a : handed g h (k, a) = if (k =? g)%nat then (h, a) else (k, a).
Proof. reflexivity. Qed.
Ltac keys := repeat (rewrite ?key_pair, ?handed_pair in *; match goal with
  | |- context [(?x =? ?y)%nat] => destruct (Nat.eqb_spec x y); try subst
  end); try congruence; try reflexivity.
Lemma key_handed_old g h own : g <> h -> filter (key g) (map (handed g h) own) = [].
Proof. intros N. induction own as [|[k a] own IH]; [reflexivity|]. cbn [map filter]. keys. Qed.
Lemma key_handed_new g h own : filter (key h) own = [] ->
  filter (key h) (map (handed g h) own) = map (handed g h) (filter (key g) own).
Proof.
  induction own as [|[k a] own IH]; intros E; [reflexivity|]. cbn [map filter] in *.
  assert (KH : key h (k, a) = false) by (destruct (key h (k, a)); [discriminate E|reflexivity]). rewrite KH in E.
  destruct (key g (k, a)) eqn:KG.
  - assert (H : handed g h (k, a) = (h, a)) by (unfold handed; change (fst (k, a) =? g)%nat with (key g (k, a)); now rewrite KG).
    cbn [map]. rewrite H. unfold key at 1. cbn [fst]. rewrite Nat.eqb_refl, (IH E). reflexivity.
  - assert (H : handed g h (k, a) = (k, a)) by (unfold handed; change (fst (k, a) =? g)%nat with (key g (k, a)); now rewrite KG).
    rewrite H, KH. exact (IH E).
Qed.
Lemma key_handed_other g h i own : i <> g -> i <> h -> filter (key i) (map (handed g h) own) = filter (key i) own.
Proof. intros N1 N2. induction own as [|[k a] own IH]; [reflexivity|]. cbn [map filter]. keys. Qed.
Lemma key_filter g i own : filter (key i) (filter (fun x => negb (fst x =? g)%nat) own) = if (i =? g)%nat then [] else filter (key i) own.
Proof.
  induction own as [|[k a] own IH]; [now destruct (i =? g)%nat|]. cbn [filter fst].
  destruct (Nat.eqb_spec k g) as [->|NE]; cbn [negb filter]; rewrite IH; keys.
Qed.

Lemma guard_run_ok p : forall gs ran own dead,
  scoped (length gs) dead p ->
  (forall g, (g < length gs)%nat -> ~ In g dead -> exists o, nth_error gs g = Some (Some o)) ->
  (forall g, In g dead -> (g < length gs)%nat) ->
  (forall g, filter (key g) own = owned gs g) ->
  guard_run p (gs, ran) = Done (ran ++ run_order (length gs) own p).
Proof.
  induction p as [|c p IH]; intros gs ran own dead S A L J; [cbn; now rewrite app_nil_r|].
  destruct c as [a|g|g]; cbn [guard_run guard_exec run_order scoped] in *.
  - cbn [bind]. replace (Datatypes.S (length gs)) with (length (gs ++ [Some (mkFinal a true)])) in * by (rewrite app_length; cbn; lia).
    apply (IH _ _ _ dead); [exact S| | |].
    + intros g H D. rewrite app_length in H. cbn in H. destruct (Nat.eq_dec g (length gs)) as [->|].
      * rewrite nth_error_app2, Nat.sub_diag by lia. eexists. reflexivity.
      * rewrite nth_error_app1 by lia. apply A; [lia|exact D].
    + intros g H. rewrite app_length. specialize (L g H). lia.
    + intros g. rewrite filter_app. cbn [filter]. rewrite (J g). unfold key, owned. cbn [fst].
      destruct (Nat.eqb_spec (length gs) g) as [<-|].
      * rewrite nth_error_app2, Nat.sub_diag by lia. cbn. rewrite (proj2 (nth_error_None gs (length gs))) by lia. reflexivity.
      * rewrite app_nil_r. destruct (Nat.lt_ge_cases g (length gs)).
        -- rewrite nth_error_app1 by lia. reflexivity.
        -- rewrite (proj2 (nth_error_None gs g)) by lia. rewrite (proj2 (nth_error_None _ g)); [reflexivity|]. rewrite app_length. cbn. lia.
  - destruct S as (H1 & H2 & S). destruct (A g H1 H2) as [o Ho]. rewrite Ho. cbn [bind].
    set (gs' := replace g (Some (mkFinal (f o) false)) gs ++ [Some (mkFinal (f o) (invoke o))]).
    assert (LG : length gs' = Datatypes.S (length gs)) by (unfold gs'; rewrite app_length, replace_length; cbn; lia).
    rewrite <- LG in *. rewrite LG in S. rewrite <- LG in S. apply (IH _ _ _ dead); [exact S| | |].
    + intros i H D. rewrite LG in H. unfold gs'. destruct (Nat.eq_dec i (length gs)) as [->|].
      * rewrite nth_error_app2 by (rewrite replace_length; lia). rewrite replace_length, Nat.sub_diag. eexists. reflexivity.
      * rewrite nth_error_app1 by (rewrite replace_length; lia). rewrite nth_error_replace.
        destruct (Nat.eqb g i && (g <? length gs)%nat); [eexists; reflexivity|]. apply A; [lia|exact D].
    + intros i H. specialize (L i H). lia.
    + intros i. unfold owned, gs'. destruct (Nat.eq_dec i (length gs)) as [->|NI].
      * rewrite key_handed_new.
        2:{ rewrite J. unfold owned. rewrite (proj2 (nth_error_None gs (length gs))) by lia. reflexivity. }
        rewrite J. unfold owned. rewrite Ho.
        rewrite nth_error_app2 by (rewrite replace_length; lia). rewrite replace_length, Nat.sub_diag. cbn [nth_error invoke f].
        destruct (invoke o); [|reflexivity]. cbn [map]. unfold handed. cbn [fst snd]. rewrite Nat.eqb_refl. reflexivity.
      * destruct (Nat.lt_ge_cases i (length gs)) as [LI|LI].
        -- rewrite nth_error_app1 by (rewrite replace_length; lia). rewrite nth_error_replace.
           destruct (Nat.eqb_spec g i) as [<-|NG]; cbn [andb].
           ++ destruct (Nat.ltb_spec g (length gs)); [|lia]. cbn [invoke]. apply key_handed_old. lia.
           ++ rewrite key_handed_other by lia. apply J.
        -- rewrite (proj2 (nth_error_None _ i)) by (rewrite app_length, replace_length; cbn; lia).
           rewrite key_handed_other by lia. rewrite J. unfold owned. now rewrite (proj2 (nth_error_None gs i)) by lia.
  - destruct S as (H1 & H2 & S). destruct (A g H1 H2) as [o Ho]. rewrite Ho. cbn [bind].
    set (gs' := replace g None gs).
    assert (LG : length gs' = length gs) by apply replace_length.
    assert (E : map snd (filter (fun x => (fst x =? g)%nat) own) = if invoke o then [f o] else []).
    { pose proof (J g) as Jg. unfold owned in Jg. rewrite Ho in Jg. unfold key in Jg. rewrite Jg. destruct (invoke o); reflexivity. }
    rewrite E. rewrite <- LG in S |- *. rewrite (IH gs' _ (filter (fun x => negb (fst x =? g)%nat) own) (g :: dead)).
    + destruct (invoke o); [now rewrite <- app_assoc|reflexivity].
    + exact S.
    + intros i H D. unfold gs'. rewrite nth_error_replace. destruct (Nat.eqb_spec g i) as [->|]; [exfalso; apply D; left; reflexivity|].
      cbn [andb]. apply A; [lia|]. intros Q. apply D. right. exact Q.
    + intros i [<-|H]; [lia|]. specialize (L i H). lia.
    + intros i. rewrite key_filter. unfold owned, gs'. rewrite nth_error_replace. rewrite (Nat.eqb_sym i g).
      destruct (Nat.eqb_spec g i) as [<-|]; cbn [andb].
      * destruct (Nat.ltb_spec g (length gs)); [reflexivity|lia].
      * apply J.
Qed.

Theorem guard_run_order p : scoped 0 [] p -> guard_run p ([], []) = Done (run_order 0 [] p).
Proof.
  intros S. apply (guard_run_ok p [] [] [] []); [exact S| | |]; cbn.
  - intros g H. lia.
  - intros g [].
  - intros g. unfold owned. destruct g; reflexivity.
Qed.

(** the guards that still own something at the end *)
Fixpoint left_over (made : nat) (own : list (nat * nat)) (p : list guard_cmd) : list (nat * nat) :=
  match p with
  | [] => own
  | Finally a :: p => left_over (S made) (own ++ [(made, a)]) p
  | MoveFrom g :: p => left_over (S made) (map (handed g made) own) p
  | Destroy g :: p => left_over made (filter (fun x => negb (fst x =? g)%nat) own) p
  end.

Lemma split_filter (q : nat * nat -> bool) own :
  Permutation (map snd own) (map snd (filter q own) ++ map snd (filter (fun x => negb (q x)) own)).
Proof.
  induction own as [|x own IH]; [constructor|]. cbn [map filter]. destruct (q x); cbn [negb map app].
  - constructor. exact IH.
  - rewrite IH. apply Permutation_middle.
Qed.
Lemma handed_snd g h own : map snd (map (handed g h) own) = map snd own.
Proof. rewrite map_map. apply map_ext. intros [k a]. unfold handed. cbn [fst snd]. destruct (k =? g)%nat; reflexivity. Qed.

Lemma run_order_perm p : forall made own,
  Permutation (run_order made own p ++ map snd (left_over made own p)) (map snd own ++ actions p).
Proof.
  induction p as [|c p IH]; intros made own; cbn [run_order left_over actions flat_map].
  - rewrite app_nil_r. reflexivity.
  - destruct c as [a|g|g]; fold (actions p).
    + rewrite IH, map_app. cbn [map snd]. rewrite <- app_assoc. reflexivity.
    + rewrite IH, handed_snd. reflexivity.
    + rewrite <- app_assoc, IH. rewrite app_assoc. apply Permutation_app_tail. symmetry. apply split_filter.
Qed.

Lemma left_over_keys p : forall made own dead,
  scoped made dead p -> (forall x, In x own -> (fst x < made)%nat /\ ~ In (fst x) dead) -> (forall g, In g dead -> (g < made)%nat) ->
  forall x, In x (left_over made own p) -> (fst x < made + makings p)%nat /\ ~ In (fst x) dead /\ ~ In (Destroy (fst x)) p.
Proof.
  induction p as [|c p IH]; intros made own dead S K L x I; cbn [left_over scoped] in *.
  - destruct (K x I). unfold makings. cbn. split; [lia|]. split; [assumption|tauto].
  - destruct c as [a|g|g].
    + destruct (IH (Datatypes.S made) (own ++ [(made, a)]) dead S) with (x := x) as (A & B & C); [| |exact I|].
      * intros y Y. apply in_app_iff in Y. destruct Y as [Y|[<-|[]]].
        -- destruct (K y Y). split; [lia|assumption].
        -- cbn. split; [lia|]. intros Q. specialize (L _ Q). lia.
      * intros y Y. specialize (L y Y). lia.
      * unfold makings in *. cbn [filter is_making length]. split; [lia|]. split; [exact B|]. intros [Q|Q]; [discriminate|exact (C Q)].
    + destruct S as (H1 & H2 & S).
      destruct (IH (Datatypes.S made) (map (handed g made) own) dead S) with (x := x) as (A & B & C); [| |exact I|].
      * intros y Y. apply in_map_iff in Y. destruct Y as (z & <- & Z). destruct (K z Z). unfold handed.
        destruct (fst z =? g)%nat; cbn [fst]; [|split; [lia|assumption]]. split; [lia|]. intros Q. specialize (L _ Q). lia.
      * intros y Y. specialize (L y Y). lia.
      * unfold makings in *. cbn [filter is_making length]. split; [lia|]. split; [exact B|]. intros [Q|Q]; [discriminate|exact (C Q)].
    + destruct S as (H1 & H2 & S).
      destruct (IH made (filter (fun y => negb (fst y =? g)%nat) own) (g :: dead) S) with (x := x) as (A & B & C); [| |exact I|].
      * intros y Y. apply filter_In in Y. destruct Y as [Y Q]. destruct (K y Y). split; [assumption|].
        apply negb_true_iff, Nat.eqb_neq in Q. intros [E|E]; [congruence|contradiction].
      * intros y [<-|Y]; [assumption|]. exact (L y Y).
      * unfold makings in *. cbn [filter is_making]. split; [exact A|]. split; [intros Q; apply B; right; exact Q|].
        intros [Q|Q]; [|exact (C Q)]. injection Q as Q. apply B. left. exact Q.
Qed.

Theorem finally_once p : scoped 0 [] p -> all_destroyed p ->
  exists ran, guard_run p ([], []) = Done ran /\ Permutation ran (actions p).
Proof.
  intros S D. exists (run_order 0 [] p). split; [exact (guard_run_order p S)|].
  pose proof (run_order_perm p 0 []) as P. cbn [map app] in P.
  destruct (left_over 0 [] p) as [|x l] eqn:E; [cbn in P; rewrite app_nil_r in P; exact P|].
  exfalso. destruct (left_over_keys p 0 [] [] S) with (x := x) as (A & _ & C); [intros y []|intros y []|rewrite E; left; reflexivity|].
  apply C, D. exact A.
Qed.
