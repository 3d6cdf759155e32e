(** Whole programs on gsl::span; a program cannot leave the span it is given. *)
From Coq Require Import List NArith ZArith Arith Bool Lia.
From Verif.Base Require Import CWord.
From Verif.Spec Require Import View.
From Verif.Model Require Import Span.
From Verif.Proof Require Import Span.
Import ListNotations.
Local Open Scope Z_scope.

Definition lift (r : outcome (state * list Z)) : outcome (vars * list Z) :=
  match r with
  | Done (st, o) => Done (repr_state st, o)
  | Terminates => Terminates
  | Undefined => Undefined
  | IllFormed => IllFormed
  end.

(** arrays keep their lengths *)
Definition shape (m : arrays) : list nat := map (@length N) m.

Lemma replace_length {A} k (x : A) l : length (replace k x l) = length l.
Proof. revert k; induction l as [|y l IH]; intros [|k]; cbn; auto. Qed.
Lemma map_replace {A B} (f : A -> B) k x l : map f (replace k x l) = replace k (f x) (map f l).
Proof. revert k; induction l as [|y l IH]; intros [|k]; cbn; f_equal; auto. Qed.
Lemma replace_nth {A} k (d : A) l : replace k (nth k l d) l = l.
Proof. revert k; induction l as [|y l IH]; intros [|k]; cbn; f_equal; auto. Qed.
Lemma Forall_replace {A} (P : A -> Prop) k x l : P x -> Forall P l -> Forall P (replace k x l).
Proof. intros Hx H. revert k. induction H; intros [|k]; cbn; constructor; auto. Qed.

Lemma write_shape m a k x : shape (write m a k x) = shape m.
Proof.
  unfold write, shape. destruct a as [a|]; [|reflexivity].
  rewrite map_replace, replace_length. rewrite <- (map_nth (@length N)). apply replace_nth.
Qed.
Lemma shape_nth m m' a : shape m = shape m' -> length (nth a m []) = length (nth a m' []).
Proof.
  intros H. change 0%nat with (length (@nil N)). rewrite <- !(map_nth (@length N)). unfold shape in H. now rewrite H.
Qed.
Lemma shape_length m m' : shape m = shape m' -> length m = length m'.
Proof. intros H. rewrite <- (map_length (@length N) m), <- (map_length (@length N) m'). unfold shape in H. now rewrite H. Qed.

Lemma in_array_shape m m' a k n : shape m = shape m' -> in_array m a k n -> in_array m' a k n.
Proof.
  intros H. unfold in_array. destruct a as [a|]; [|tauto]. now rewrite (shape_nth m m' a H), (shape_length m m' H).
Qed.
Lemma small_shape m m' : shape m = shape m' -> small m -> small m'.
Proof. intros H S a. rewrite <- (shape_nth m m' a H). apply S. Qed.
Lemma wf_shape m' st : shape (mem st) = shape m' -> wf st -> wf (mkState m' (views st) (cursors st)).
Proof.
  intros H [A B C]. split; cbn.
  - exact (small_shape _ _ H A).
  - eapply Forall_impl; [|exact B]. intros v. apply in_array_shape, H.
  - eapply Forall_impl; [|exact C]. intros c [I P]. split; [exact (in_array_shape _ _ _ _ _ H I)|exact P].
Qed.

(** the outcome of a statement keeps the invariant *)
Definition fine (m : arrays) (r : outcome (state * list Z)) : Prop :=
  match r with Done (st, _) => wf st /\ shape (mem st) = shape m | Undefined => False | _ => True end.

Section Fine.
  Variable st : state.
  Hypothesis W : wf st.

  Lemma fine_view v : wf_view (mem st) v -> fine (mem st) (new_view st v).
  Proof using W.
    intros H. destruct W as [A B C]. split; [|reflexivity]. split; cbn; [assumption| |assumption].
    apply Forall_app. split; [assumption|constructor; [assumption|constructor]].
  Qed.
  Lemma fine_cursor c : wf_cursor (mem st) c -> fine (mem st) (new_cursor st c).
  Proof using W.
    intros H. destruct W as [A B C]. split; [|reflexivity]. split; cbn; [assumption|assumption|].
    apply Forall_app. split; [assumption|constructor; [assumption|constructor]].
  Qed.
  Lemma fine_set k c : wf_cursor (mem st) c -> fine (mem st) (set_cursor st k c).
  Proof using W.
    intros H. destruct W as [A B C]. split; [|reflexivity]. split; cbn; [assumption|assumption|].
    apply Forall_replace; assumption.
  Qed.
  Lemma fine_element a k x : fine (mem st) (set_element st a k x).
  Proof using W.
    split; cbn; [|apply write_shape].
    apply wf_shape; [symmetry; apply write_shape|assumption].
  Qed.
  Lemma fine_says z : fine (mem st) (says st z).
  Proof using W. split; [assumption|reflexivity]. Qed.
  Lemma fine_provided b r : (b = true -> fine (mem st) r) -> fine (mem st) (provided b r).
  Proof. unfold provided. destruct b; [auto|exact (fun _ => I)]. Qed.
  Lemma fine_checked b r : (b = true -> fine (mem st) r) -> fine (mem st) (checked b r).
  Proof. unfold checked. destruct b; [auto|exact (fun _ => I)]. Qed.
  Lemma fine_moved c n f : wf_cursor (mem st) c -> (forall p, wf_cursor (mem st) (place_at c p) -> fine (mem st) (f p)) ->
    fine (mem st) (moved st c n f).
  Proof.
    intros H F. apply fine_provided. rewrite andb_true_iff, !Z.leb_le. intros L. apply F, wf_place; [assumption|lia].
  Qed.
  Lemma fine_on_view v f : (forall v, wf_view (mem st) v -> fine (mem st) (f v)) -> fine (mem st) (on_view st v f).
  Proof using W.
    intros H. unfold on_view. destruct (nth_error (views st) v) eqn:E; [|exact I]. apply H.
    exact (proj1 (Forall_forall _ _) (wf_views st W) _ (nth_error_In _ _ E)).
  Qed.
  Lemma fine_on_cursor c f : (forall c, wf_cursor (mem st) c -> fine (mem st) (f c)) -> fine (mem st) (on_cursor st c f).
  Proof using W.
    intros H. unfold on_cursor. destruct (nth_error (cursors st) c) eqn:E; [|exact I]. apply H.
    exact (proj1 (Forall_forall _ _) (wf_cursors st W) _ (nth_error_In _ _ E)).
  Qed.
End Fine.

Lemma nth_error_nth_nil (m : arrays) a l : nth_error m a = Some l -> (a < length m)%nat /\ nth a m [] = l.
Proof. intros H. split; [apply nth_error_Some; congruence|exact (nth_error_nth m a [] H)]. Qed.

Lemma wf_part m v o n b : wf_view m v -> (o + n <= count v)%nat -> wf_view m (part o n b v).
Proof. intros H L. exact (in_part m _ _ (count v) o n H L). Qed.
Lemma fits_le v o n : fits v o n = true -> (N.to_nat o + part_size v o n <= count v)%nat.
Proof.
  unfold fits, part_size. rewrite andb_true_iff, N.leb_le. intros [A B]. destruct n; [apply N.leb_le in B|]; lia.
Qed.

Lemma means_fine size c st : wf st -> careful (mem st) c -> fine (mem st) (means size c st).
Proof.
  intros W C. pose proof (fine_says st W) as Says. pose proof (fine_element st W) as El.
  destruct c; cbn [means careful] in *;
    try (apply fine_on_view; [exact W|]; intros u U); try (apply fine_on_cursor; [exact W|]; intros d D);
    try (unfold on_array; destruct (nth_error (mem st) a) eqn:NE; [|exact I]; apply nth_error_nth_nil in NE; destruct NE as [NA NB]);
    try exact (Says _).
  - apply fine_view; [exact W|]. split; reflexivity.
  - apply fine_view; [exact W|]. split; cbn; [exact NA|]. subst. lia.
  - apply fine_view; [exact W|]. split; cbn; [exact NA|]. subst. lia.
  - apply fine_view; [exact W|]. split; cbn; [exact NA|]. subst. lia.
  - apply fine_view; [exact W|]. split; cbn; [exact NA|]. subst. lia.
  - destruct extent as [e|]; (apply fine_on_view; [exact W|]; intros u U).
    + cbn zeta. destruct (fixed u).
      * apply fine_checked. intros _. apply fine_view; assumption.
      * apply fine_provided. intros _. apply fine_view, wf_part; [exact W|assumption|lia].
    + apply fine_view, wf_part; [exact W|assumption|lia].
  - apply fine_provided. intros F. apply fits_le in F. cbn [part_size] in F. apply fine_view, wf_part; [exact W|assumption|lia].
  - apply fine_provided. intros F. apply fits_le in F. cbn [part_size] in F. apply fine_view, wf_part; [exact W|assumption|lia].
  - apply fine_provided. intros F. apply fits_le in F. apply fine_view, wf_part; [exact W|assumption|lia].
  - destruct (fixed u); (apply fine_checked || apply fine_provided); intros F; apply fits_le in F; cbn [part_size] in F;
      (apply fine_view, wf_part; [exact W|assumption|lia]).
  - destruct (fixed u); (apply fine_checked || apply fine_provided); intros F; apply fits_le in F; cbn [part_size] in F;
      (apply fine_view, wf_part; [exact W|assumption|lia]).
  - destruct (fixed u); (apply fine_checked || apply fine_provided); intros F; apply fits_le in F;
      (apply fine_view, wf_part; [exact W|assumption|lia]).
  - apply fine_provided. intros _. exact (Says _).
  - apply fine_provided. intros _. exact (El _ _ _).
  - apply fine_provided. intros _. exact (Says _).
  - apply fine_provided. intros _. exact (Says _).
  - apply fine_provided. intros _. exact (Says _).
  - apply fine_on_view; [exact W|]. intros w1 V. apply fine_checked. intros _. exact (Says _).
  - apply fine_cursor, wf_cursor_at; [exact W|assumption|lia].
  - apply fine_cursor, wf_cursor_at; [exact W|assumption|lia].
  - apply fine_cursor; assumption.
  - apply fine_moved; [assumption|]. intros p P. apply fine_set; assumption.
  - apply fine_moved; [assumption|]. intros p P. apply fine_set; assumption.
  - apply fine_moved; [assumption|]. intros p P. apply fine_set; assumption.
  - apply fine_moved; [assumption|]. intros p P. apply fine_set; assumption.
  - apply fine_moved; [assumption|]. intros p P. apply fine_cursor; assumption.
  - apply fine_moved; [assumption|]. intros p P. apply fine_cursor; assumption.
  - apply fine_provided. intros _. exact (Says _).
  - apply fine_provided. intros _. exact (El _ _ _).
  - apply fine_moved; [assumption|]. intros p P. apply fine_provided. intros _. exact (Says _).
  - apply fine_moved; [assumption|]. intros p P. exact (Says _).
  - apply fine_on_cursor; [exact W|]. intros d1 D. apply fine_on_cursor; [exact W|]. intros e E. apply fine_provided. intros _. exact (Says _).
  - apply fine_on_cursor; [exact W|]. intros d1 D. apply fine_on_cursor; [exact W|]. intros e E. apply fine_provided. intros _. exact (Says _).
Qed.

Section Sim.
  Variable st : state.
  Hypothesis W : wf st.
  Let m := mem st.

  Lemma sim_view v K f : (forall u, wf_view (mem st) u -> K (repr u) = lift (f u)) ->
    bind (span_var (repr_state st) v) K = lift (on_view st v f).
  Proof using W.
    intros H. unfold span_var, on_view. cbn [repr_state spans]. rewrite nth_error_map.
    destruct (nth_error (views st) v) eqn:E; cbn [option_map bind]; [|reflexivity]. apply H.
    exact (proj1 (Forall_forall _ _) (wf_views st W) _ (nth_error_In _ _ E)).
  Qed.
  Lemma sim_cursor v K f : (forall u, wf_cursor (mem st) u -> K (repr_cursor u) = lift (f u)) ->
    bind (iterator_var (repr_state st) v) K = lift (on_cursor st v f).
  Proof using W.
    intros H. unfold iterator_var, on_cursor. cbn [repr_state iterators]. rewrite nth_error_map.
    destruct (nth_error (cursors st) v) eqn:E; cbn [option_map bind]; [|reflexivity]. apply H.
    exact (proj1 (Forall_forall _ _) (wf_cursors st W) _ (nth_error_In _ _ E)).
  Qed.
  Lemma sim_array a K f : (forall l, nth_error (mem st) a = Some l -> K tt = lift (f l)) ->
    bind (array_var (repr_state st) a) K = lift (on_array st a f).
  Proof using Type.
    intros H. unfold array_var, on_array. cbn [repr_state memory].
    destruct (nth_error (mem st) a) eqn:E; cbn [bind]; [|reflexivity]. apply H. reflexivity.
  Qed.
  Lemma sim_new_view u : declare_span (repr_state st) (Done (repr u)) = lift (new_view st u).
  Proof. unfold declare_span, lift, new_view, repr_state. cbn [bind mem views cursors spans iterators memory]. now rewrite map_app. Qed.
  Lemma sim_new_cursor c : declare_iterator (repr_state st) (Done (repr_cursor c)) = lift (new_cursor st c).
  Proof. unfold declare_iterator, lift, new_cursor, repr_state. cbn [bind mem views cursors spans iterators memory]. now rewrite map_app. Qed.
  Lemma sim_set_cursor k c : set_iterator (repr_state st) k (Done (repr_cursor c)) = lift (set_cursor st k c).
  Proof. unfold set_iterator, lift, set_cursor, repr_state. cbn [bind mem views cursors spans iterators memory]. now rewrite map_replace. Qed.
  Lemma sim_view_if (b : bool) u :
    declare_span (repr_state st) (if b then Done (repr u) else Terminates) = lift (provided b (new_view st u)).
  Proof. destruct b; [apply sim_new_view|reflexivity]. Qed.
  Lemma sim_view_gate v b u :
    declare_span (repr_state st) (gate v b (Done (repr u))) = lift ((if fixed v then checked else provided) b (new_view st u)).
  Proof. unfold gate. destruct b, (fixed v); cbn [checked provided]; try apply sim_new_view; reflexivity. Qed.
  Lemma sim_read (b : bool) a k n : (b = true -> in_array (mem st) a k n /\ (0 < n)%nat) ->
    print_at (repr_state st) (if b then Done (ptr_of a k) else Terminates) =
    lift (provided b (says st (Z.of_N (element (mem st) a k)))).
  Proof.
    intros H. destruct b; [|reflexivity]. destruct (H eq_refl) as [H1 H2]. unfold print_at. cbn [bind repr_state memory].
    rewrite (load_ok (mem st) k a n) by assumption. reflexivity.
  Qed.
  Lemma sim_write (b : bool) a k n x : (b = true -> in_array (mem st) a k n /\ (0 < n)%nat) ->
    assign_at (repr_state st) (if b then Done (ptr_of a k) else Terminates) x =
    lift (provided b (set_element st a k x)).
  Proof.
    intros H. destruct b; [|reflexivity]. destruct (H eq_refl) as [H1 H2]. unfold assign_at. cbn [bind repr_state memory].
    rewrite (store_ok (mem st) k a n) by assumption. reflexivity.
  Qed.
  Lemma sim_shift_set k c n : set_iterator (repr_state st) k (shift c n) =
    lift (moved st c n (fun p => set_cursor st k (place_at c p))).
  Proof.
    unfold shift, moved. cbn zeta. destruct (_ && _); cbn [provided]; [apply sim_set_cursor|reflexivity].
  Qed.
  Lemma sim_shift_new c n : declare_iterator (repr_state st) (shift c n) =
    lift (moved st c n (fun p => new_cursor st (place_at c p))).
  Proof.
    unfold shift, moved. cbn zeta. destruct (_ && _); cbn [provided]; [apply sim_new_cursor|reflexivity].
  Qed.
End Sim.

Lemma small_bytes size st u : exist size (mem st) -> wf_view (mem st) u -> (N.of_nat (count u) * size < 2 ^ 64)%N.
Proof.
  intros [P F] U. unfold wf_view, in_array in U. destruct (array u) as [a|]; [|destruct U as [_ ->]; reflexivity].
  destruct U as [A B]. pose proof (proj1 (Forall_forall _ _) F (nth a (mem st) []) (nth_In _ _ A)) as H. cbn beta in H.
  apply N.lt_trans with (2 ^ 63)%N; [|reflexivity].
  eapply N.le_lt_trans; [|exact H]. apply N.mul_le_mono_r. lia.
Qed.

Lemma exec_means size c st : wf st -> exist size (mem st) -> typed c -> careful (mem st) c ->
  exec size c (repr_state st) = lift (means size c st).
Proof.
  intros W X T C. pose proof (wf_small st W) as S.
  destruct c; cbn [exec means typed careful] in *; cbn zeta in *;
    try (apply (sim_view st W); intros u U); try (apply (sim_cursor st W); intros d D);
    try (apply (sim_array st); intros l NE; apply nth_error_nth_nil in NE; destruct NE as [NA NB]);
    cbn [repr_state memory].
  - apply (sim_new_view st (mkView None 0 0 false)).
  - unfold span_array. rewrite NB. unfold storage_known, extent_type.
    specialize (S a). rewrite NB in S.
    destruct (N.eqb_spec (N.of_nat (length l)) dynamic_extent); [nums; lia|]. rewrite N.eqb_refl. cbn [Expects bind].
    apply (sim_new_view st (mkView (Some a) 0 (length l) true)).
  - unfold span_container. rewrite NB. change (At a 0) with (ptr_of (Some a) 0).
    rewrite (span_count_dyn (mem st)); [|split; [assumption|rewrite NB; lia]|assumption].
    apply (sim_new_view st (mkView (Some a) 0 (length l) false)).
  - unfold padd, array_size. rewrite Z.add_0_l. destruct (Z.leb_spec 0 (Z.of_N i)); [|lia].
    destruct (Z.leb_spec (Z.of_N i) (Z.of_nat (length (nth a (mem st) [])))); [|lia]. cbn [andb bind].
    replace (At a (Z.of_N i)) with (ptr_of (Some a) (N.to_nat i)) by (unfold ptr_of; f_equal; lia).
    rewrite <- (N2Nat.id n) at 1.
    rewrite (span_count_dyn (mem st)); [|split; [assumption|lia]|assumption].
    apply (sim_new_view st (mkView (Some a) (N.to_nat i) (N.to_nat n) false)).
  - unfold padd, array_size. rewrite !Z.add_0_l. destruct (Z.leb_spec 0 (Z.of_N i)); [|lia].
    destruct (Z.leb_spec (Z.of_N i) (Z.of_nat (length (nth a (mem st) [])))); [|lia]. cbn [andb bind].
    destruct (Z.leb_spec 0 (Z.of_N j)); [|lia].
    destruct (Z.leb_spec (Z.of_N j) (Z.of_nat (length (nth a (mem st) [])))); [|lia]. cbn [andb bind].
    unfold span_range, pdiff. rewrite Nat.eqb_refl. cbn [bind].
    specialize (S a). unfold to_size. destruct T as [T1 T2]. unfold is_size in *. nums. rewrite Z.mod_small by lia.
    replace (Z.to_N (Z.of_N j - Z.of_N i)) with (N.of_nat (N.to_nat j - N.to_nat i)) by lia.
    replace (At a (Z.of_N i)) with (ptr_of (Some a) (N.to_nat i)) by (unfold ptr_of; f_equal; lia).
    pose proof (storage_dyn (mem st) (Some a) (N.to_nat i) (N.to_nat j - N.to_nat i) true
      ltac:(split; [assumption|lia]) (wf_small st W)) as E. cbn iota in E. unfold dynamic_extent in E. rewrite E.
    apply (sim_new_view st (mkView (Some a) (N.to_nat i) (N.to_nat j - N.to_nat i) false)).
  - destruct extent as [e|]; (apply (sim_view st W); intros u U); cbn [extent_arg].
    + rewrite (convert_fix (mem st)) by assumption. cbn zeta.
      destruct (fixed u) eqn:F, (N.eqb_spec e (N.of_nat (count u))); cbn [checked provided]; try reflexivity; apply sim_new_view.
    + rewrite (convert_dyn (mem st)) by assumption. apply sim_new_view.
  - rewrite (first_ok (mem st)) by assumption. apply sim_view_if.
  - rewrite (last_ok (mem st)) by assumption. apply sim_view_if.
  - rewrite (subspan_ok (mem st)) by (try assumption; apply T). apply sim_view_if.
  - rewrite (firstT_ok (mem st)) by assumption. apply sim_view_gate.
  - rewrite (lastT_ok (mem st)) by assumption. apply sim_view_gate.
  - rewrite (subspanT_ok (mem st)) by (try assumption; apply T). apply sim_view_gate.
  - rewrite (size_repr (mem st)) by assumption. unfold print, says, lift. cbn [bind]. do 3 f_equal. lia.
  - rewrite (ssize_ok (mem st)) by assumption. reflexivity.
  - rewrite (size_bytes_ok (mem st)) by (try assumption; exact (small_bytes size st u X U)). reflexivity.
  - unfold empty. rewrite (size_repr (mem st)) by assumption. unfold print_bool, says, lift. cbn [bind]. do 4 f_equal.
    destruct (N.eqb_spec (N.of_nat (count u)) 0), (Nat.eqb_spec (count u) 0); lia || reflexivity.
  - rewrite (subscript_ok (mem st)) by assumption. apply (sim_read st _ _ _ (count u - N.to_nat i)).
    rewrite N.ltb_lt. intros L. split; [|lia]. apply (in_part _ _ _ (count u)); [exact U|lia].
  - rewrite (subscript_ok (mem st)) by assumption. apply (sim_write st _ _ _ (count u - N.to_nat i)).
    rewrite N.ltb_lt. intros L. split; [|lia]. apply (in_part _ _ _ (count u)); [exact U|lia].
  - rewrite (front_ok (mem st)) by assumption. apply (sim_read st _ _ _ (count u)).
    rewrite Nat.ltb_lt. intros L. split; [exact U|lia].
  - rewrite (back_ok (mem st)) by assumption. apply (sim_read st _ _ _ 1).
    rewrite Nat.ltb_lt. intros L. split; [|lia]. apply (in_part _ _ _ (count u)); [exact U|lia].
  - rewrite (at_ok (mem st)) by assumption. apply (sim_read st _ _ _ (count u - Z.to_nat i)).
    rewrite andb_true_iff, Z.leb_le, Z.ltb_lt. intros L. split; [|lia]. apply (in_part _ _ _ (count u)); [exact U|lia].
  - apply (sim_view st W); intros u1 U1. cbn [repr_state memory]. rewrite (span_compare_ok (mem st)) by assumption.
    set (b := match r with Eq => true | _ => _ end). clearbody b. destruct b; reflexivity.
  - rewrite (begin_ok (mem st)) by assumption. apply sim_new_cursor.
  - rewrite (end_ok (mem st)) by assumption. apply sim_new_cursor.
  - apply sim_new_cursor.
  - rewrite (increment_ok (mem st)) by assumption. apply sim_shift_set.
  - rewrite (decrement_ok (mem st)) by assumption. apply sim_shift_set.
  - rewrite (advance_ok (mem st)) by assumption. apply sim_shift_set.
  - rewrite (retreat_ok (mem st)) by assumption. apply sim_shift_set.
  - rewrite (advance_ok (mem st)) by assumption. apply sim_shift_new.
  - rewrite (retreat_ok (mem st)) by assumption. apply sim_shift_new.
  - rewrite (deref_ok (mem st)) by assumption. apply (sim_read st _ _ _ (len d - place d)).
    rewrite Nat.ltb_lt. intros L. split; [|lia]. apply (in_part _ _ _ (len d)); [apply D|lia].
  - rewrite (deref_ok (mem st)) by assumption. apply (sim_write st _ _ _ (len d - place d)).
    rewrite Nat.ltb_lt. intros L. split; [|lia]. apply (in_part _ _ _ (len d)); [apply D|lia].
  - unfold iterator_subscript. rewrite (advance_ok (mem st)) by assumption. unfold shift, moved. cbn zeta.
    destruct ((0 <=? Z.of_nat (place d) + n) && (Z.of_nat (place d) + n <=? Z.of_nat (len d))) eqn:B; cbn [bind provided]; [|reflexivity].
    rewrite andb_true_iff, !Z.leb_le in B.
    rewrite (deref_ok (mem st)) by (apply wf_place; [assumption|lia]). cbn [place_at place over from len].
    apply (sim_read st _ _ _ (len d - Z.to_nat (Z.of_nat (place d) + n))).
    rewrite Nat.ltb_lt. intros L. split; [|lia]. apply (in_part _ _ _ (len d)); [apply D|lia].
  - unfold reverse_deref. rewrite (decrement_ok (mem st)) by assumption. unfold shift, moved. cbn zeta.
    destruct ((0 <=? Z.of_nat (place d) + -1) && (Z.of_nat (place d) + -1 <=? Z.of_nat (len d))) eqn:B; cbn [bind provided]; [|reflexivity].
    rewrite andb_true_iff, !Z.leb_le in B.
    rewrite (deref_ok (mem st)) by (apply wf_place; [assumption|lia]). cbn [place_at place over from len].
    pose proof (proj2 D) as DP.
    destruct (Nat.ltb_spec (Z.to_nat (Z.of_nat (place d) + -1)) (len d)) as [L|L]; [|lia].
    apply (sim_read st true _ _ (len d - Z.to_nat (Z.of_nat (place d) + -1))).
    intros _. split; [|lia]. apply (in_part _ _ _ (len d)); [apply D|lia].
  - apply (sim_cursor st W); intros d1 D. apply (sim_cursor st W); intros e E. rewrite (distance_ok (mem st)) by assumption.
    destruct (same_range d1 e); reflexivity.
  - apply (sim_cursor st W); intros d1 D. apply (sim_cursor st W); intros e E. rewrite (iterator_compare_ok (mem st)) by assumption.
    destruct (same_range d1 e); reflexivity.
Qed.

Lemma exist_shape size m m' : shape m = shape m' -> exist size m -> exist size m'.
Proof.
  intros H [P F]. split; [exact P|]. apply Forall_forall. intros l I.
  destruct (In_nth _ _ [] I) as (a & A & <-). rewrite <- (shape_nth m m' a H).
  rewrite <- (shape_length m m' H) in A. exact (proj1 (Forall_forall _ _) F _ (nth_In _ _ A)).
Qed.
Lemma careful_shape m m' c : shape m = shape m' -> careful m c -> careful m' c.
Proof. intros H. destruct c; cbn [careful]; try exact (fun x => x); rewrite (shape_nth m m' _ H); exact (fun x => x). Qed.

Theorem run_behaves size p : forall st, wf st -> exist size (mem st) -> Forall typed p -> Forall (careful (mem st)) p ->
  run size p (repr_state st) = behaves size p st /\ snd (behaves size p st) <> Undefined.
Proof.
  induction p as [|c p IH]; intros st W X T C; [split; [reflexivity|discriminate]|].
  apply Forall_cons_iff in T. destruct T as [T1 T2]. apply Forall_cons_iff in C. destruct C as [C1 C2].
  cbn [run behaves]. rewrite (exec_means size c st) by assumption.
  pose proof (means_fine size c st W C1) as F. destruct (means size c st) as [[st' o]| | |]; cbn [lift fine] in *.
  - destruct F as [W' H]. symmetry in H.
    destruct (IH st' W' (exist_shape _ _ _ H X) T2) as [A B].
    { eapply Forall_impl; [|exact C2]. intros a. apply careful_shape, H. }
    rewrite A. destruct (behaves size p st') as [r e]. split; [reflexivity|exact B].
  - split; [reflexivity|discriminate].
  - contradiction.
  - split; [reflexivity|discriminate].
Qed.

Lemma wf_initially size m : exist size m -> wf (initially m).
Proof.
  intros [P F]. split; cbn; [|constructor|constructor]. intros a.
  destruct (Nat.lt_ge_cases a (length m)) as [A|A].
  - pose proof (proj1 (Forall_forall _ _) F _ (nth_In _ [] A)) as H. cbn beta in H.
    eapply N.le_lt_trans; [|exact H]. nia.
  - rewrite nth_overflow by assumption. reflexivity.
Qed.

(** ** A program cannot leave its span *)

Lemma nth_window {A} s c (l : list A) j d : (j < c)%nat -> nth j (firstn c (skipn s l)) d = nth (s + j) l d.
Proof.
  intros H. transitivity (nth j (skipn s l) d).
  - revert j c H. generalize (skipn s l). clear. intros l. induction l as [|x l IH]; intros j [|c] H; try lia; [reflexivity|].
    destruct j; cbn; [reflexivity|]. apply IH. lia.
  - clear H. revert l; induction s as [|s IH]; intros [|x l]; cbn; try reflexivity; [destruct j; reflexivity|]. apply IH.
Qed.

Section Confined.
  Variables (a k n : nat).

  Definition inside (o : option nat) (s c : nat) : Prop :=
    match o with Some b => b = a /\ (k <= s)%nat /\ (s + c <= k + n)%nat | None => c = 0%nat end.
  Definition in_view (v : view) : Prop := inside (array v) (start v) (count v).
  Definition in_cursor (c : cursor) : Prop := inside (over c) (from c) (len c) /\ (place c <= len c)%nat.

  Record rel2 (st st' : state) : Prop := mkRel {
    r_views : views st = views st';
    r_cursors : cursors st = cursors st';
    r_in_views : Forall in_view (views st);
    r_in_cursors : Forall in_cursor (cursors st);
    r_shape : shape (mem st) = shape (mem st');
    r_agree : agree_inside a k n (mem st) (mem st') }.

  Definition pair (m m' : arrays) (r r' : outcome (state * list Z)) : Prop :=
    match r, r' with
    | Done (st, o), Done (st', o') =>
        o = o' /\ rel2 st st' /\ agree_outside a k n (mem st) m /\ agree_outside a k n (mem st') m'
    | Terminates, Terminates | IllFormed, IllFormed | Undefined, Undefined => True
    | _, _ => False
    end.

  Lemma outside_refl m : agree_outside a k n m m.
  Proof. intros b j _. reflexivity. Qed.

  Section At.
    Variables st st' : state.
    Hypothesis R : rel2 st st'.
    Let P := pair (mem st) (mem st').

    Lemma pair_view v : in_view v -> P (new_view st v) (new_view st' v).
    Proof using R.
      intros H. destruct R as [A B C D E F]. split; [reflexivity|]. split; [|split; apply outside_refl].
      split; cbn; try assumption; [congruence|]. apply Forall_app. split; [assumption|constructor; [assumption|constructor]].
    Qed.
    Lemma pair_cursor v : in_cursor v -> P (new_cursor st v) (new_cursor st' v).
    Proof using R.
      intros H. destruct R as [A B C D E F]. split; [reflexivity|]. split; [|split; apply outside_refl].
      split; cbn; try assumption; [congruence|]. apply Forall_app. split; [assumption|constructor; [assumption|constructor]].
    Qed.
    Lemma pair_set i v : in_cursor v -> P (set_cursor st i v) (set_cursor st' i v).
    Proof using R.
      intros H. destruct R as [A B C D E F]. split; [reflexivity|]. split; [|split; apply outside_refl].
      split; cbn; try assumption; [congruence|]. apply Forall_replace; assumption.
    Qed.
    Lemma pair_says z z' : z = z' -> P (says st z) (says st' z').
    Proof using R. intros ->. split; [reflexivity|]. split; [exact R|]. split; apply outside_refl. Qed.
    Lemma pair_provided b r r' : (b = true -> P r r') -> P (provided b r) (provided b r').
    Proof. unfold provided. destruct b; [auto|exact (fun _ => I)]. Qed.
    Lemma pair_checked b r r' : (b = true -> P r r') -> P (checked b r) (checked b r').
    Proof. unfold checked. destruct b; [auto|exact (fun _ => I)]. Qed.
    Lemma pair_moved c d f f' : in_cursor c -> (forall p, in_cursor (place_at c p) -> P (f p) (f' p)) ->
      P (moved st c d f) (moved st' c d f').
    Proof.
      intros [H _] F. apply pair_provided. rewrite andb_true_iff, !Z.leb_le. intros L. apply F. split; [exact H|cbn; lia].
    Qed.
    Lemma pair_on_view v f f' : (forall v, in_view v -> P (f v) (f' v)) -> P (on_view st v f) (on_view st' v f').
    Proof using R.
      intros H. unfold on_view. rewrite <- (r_views _ _ R). destruct (nth_error (views st) v) eqn:E; [|exact I]. apply H.
      exact (proj1 (Forall_forall _ _) (r_in_views _ _ R) _ (nth_error_In _ _ E)).
    Qed.
    Lemma pair_on_cursor v f f' : (forall v, in_cursor v -> P (f v) (f' v)) -> P (on_cursor st v f) (on_cursor st' v f').
    Proof using R.
      intros H. unfold on_cursor. rewrite <- (r_cursors _ _ R). destruct (nth_error (cursors st) v) eqn:E; [|exact I]. apply H.
      exact (proj1 (Forall_forall _ _) (r_in_cursors _ _ R) _ (nth_error_In _ _ E)).
    Qed.

    Lemma same_element o s c i : inside o s c -> (i < c)%nat -> element (mem st) o (s + i) = element (mem st') o (s + i).
    Proof using R.
      intros H L. destruct o as [b|]; [|reflexivity]. destruct H as (-> & H1 & H2).
      apply (r_agree _ _ R). split; [reflexivity|lia].
    Qed.
    Lemma pair_read b o s c i : inside o s c -> (b = true -> (i < c)%nat) ->
      P (provided b (says st (Z.of_N (element (mem st) o (s + i))))) (provided b (says st' (Z.of_N (element (mem st') o (s + i))))).
    Proof using R. intros H L. apply pair_provided. intros B. apply pair_says. f_equal. apply (same_element o s c); auto. Qed.

    Lemma nth_replace {A} i j (x d : A) l : nth j (replace i x l) d = if Nat.eqb i j && (i <? length l)%nat then x else nth j l d.
    Proof.
      revert i j; induction l as [|y l IH]; intros [|i] [|j]; cbn; try reflexivity; try (rewrite andb_false_r; reflexivity).
      rewrite IH. reflexivity.
    Qed.
    Lemma element_write m b i x c j : element (write m (Some b) i x) (Some c) j =
      if Nat.eqb b c && (b <? length m)%nat && Nat.eqb i j && (i <? length (nth b m []))%nat then x else element m (Some c) j.
    Proof.
      unfold element, write. rewrite nth_replace. destruct (Nat.eqb_spec b c) as [<-|]; cbn [andb]; [|reflexivity].
      destruct (b <? length m)%nat; cbn [andb]; [|reflexivity]. apply nth_replace.
    Qed.
    Lemma pair_write o s c i x : inside o s c -> (i < c)%nat -> P (set_element st o (s + i) x) (set_element st' o (s + i) x).
    Proof using R.
      intros H L. destruct R as [A B C D E F]. destruct o as [b|]; [|cbn in H; lia]. destruct H as (-> & H1 & H2).
      split; [reflexivity|]. split; [|split].
      - split; cbn [mem views cursors]; try assumption; [now rewrite !write_shape|].
        intros c' j I. rewrite !element_write, <- (shape_length _ _ E), <- (shape_nth _ _ a E).
        rewrite (F c' j I). reflexivity.
      - intros c' j I. cbn [mem]. rewrite element_write.
        destruct (Nat.eqb_spec a c') as [<-|]; [|reflexivity]. destruct (Nat.eqb_spec (s + i) j) as [<-|]; [|now rewrite andb_false_r].
        exfalso. apply I. split; [reflexivity|lia].
      - intros c' j I. cbn [mem]. rewrite element_write.
        destruct (Nat.eqb_spec a c') as [<-|]; [|reflexivity]. destruct (Nat.eqb_spec (s + i) j) as [<-|]; [|now rewrite andb_false_r].
        exfalso. apply I. split; [reflexivity|lia].
    Qed.

    Lemma content_same v : in_view v -> content (mem st) v = content (mem st') v.
    Proof using R.
      intros H. destruct R as [_ _ _ _ E F]. unfold content, in_view, inside in *. destruct (array v) as [b|]; [|reflexivity].
      destruct H as (-> & H1 & H2). pose proof (shape_nth _ _ a E) as LN.
      apply nth_ext with (d := 0%N) (d' := 0%N).
      - rewrite !firstn_length, !skipn_length, LN. reflexivity.
      - intros j L. rewrite firstn_length, skipn_length in L.
        rewrite !nth_window by lia. apply (F a). split; [reflexivity|lia].
    Qed.
  End At.

  Lemma in_part_view o c b v : in_view v -> (o + c <= count v)%nat -> in_view (part o c b v).
  Proof. unfold in_view, inside, part. cbn [array start count]. destruct (array v); lia. Qed.
  Lemma in_cursor_at v i : in_view v -> (i <= count v)%nat -> in_cursor (cursor_at v i).
  Proof. intros H L. split; [exact H|exact L]. Qed.

  Lemma means_pair size c st st' : rel2 st st' -> derived c -> pair (mem st) (mem st') (means size c st) (means size c st').
  Proof.
    intros R Dv. destruct c; cbn [means derived] in *; try contradiction;
      try (apply (pair_on_view st st' R); intros u U); try (apply (pair_on_cursor st st' R); intros u U);
      try (apply (pair_says st st' R); reflexivity).
    - apply (pair_view st st' R). reflexivity.
    - destruct extent as [e|]; (apply (pair_on_view st st' R); intros u U).
      + cbn zeta. destruct (fixed u).
        * apply (pair_checked st st'). intros _. apply (pair_view st st' R). assumption.
        * apply (pair_provided st st'). intros _. apply (pair_view st st' R), in_part_view; [assumption|lia].
      + apply (pair_view st st' R), in_part_view; [assumption|lia].
    - apply (pair_provided st st'). intros F. apply fits_le in F. cbn [part_size] in F. apply (pair_view st st' R), in_part_view; [assumption|lia].
    - apply (pair_provided st st'). intros F. apply fits_le in F. cbn [part_size] in F. apply (pair_view st st' R), in_part_view; [assumption|lia].
    - apply (pair_provided st st'). intros F. apply fits_le in F. apply (pair_view st st' R), in_part_view; [assumption|lia].
    - destruct (fixed u); (apply (pair_checked st st') || apply (pair_provided st st')); intros F; apply fits_le in F; cbn [part_size] in F;
        (apply (pair_view st st' R), in_part_view; [assumption|lia]).
    - destruct (fixed u); (apply (pair_checked st st') || apply (pair_provided st st')); intros F; apply fits_le in F; cbn [part_size] in F;
        (apply (pair_view st st' R), in_part_view; [assumption|lia]).
    - destruct (fixed u); (apply (pair_checked st st') || apply (pair_provided st st')); intros F; apply fits_le in F;
        (apply (pair_view st st' R), in_part_view; [assumption|lia]).
    - apply (pair_read st st' R _ _ _ (count u)); [exact U|]. rewrite N.ltb_lt. lia.
    - apply (pair_provided st st'). rewrite N.ltb_lt. intros L. apply (pair_write st st' R _ _ (count u)); [exact U|lia].
    - rewrite <- (Nat.add_0_r (start u)). apply (pair_read st st' R _ _ _ (count u)); [exact U|]. rewrite Nat.ltb_lt. lia.
    - apply (pair_read st st' R _ _ _ (count u)); [exact U|]. rewrite Nat.ltb_lt. lia.
    - apply (pair_read st st' R _ _ _ (count u)); [exact U|]. rewrite andb_true_iff, Z.leb_le, Z.ltb_lt. lia.
    - apply (pair_on_view st st' R). intros u1 U1. apply (pair_checked st st'). intros _. apply (pair_says st st' R).
      rewrite !(content_same st st' R) by assumption. reflexivity.
    - apply (pair_cursor st st' R), in_cursor_at; [assumption|lia].
    - apply (pair_cursor st st' R), in_cursor_at; [assumption|lia].
    - apply (pair_cursor st st' R); assumption.
    - apply (pair_moved st st'); [assumption|]. intros p Hp. apply (pair_set st st' R); assumption.
    - apply (pair_moved st st'); [assumption|]. intros p Hp. apply (pair_set st st' R); assumption.
    - apply (pair_moved st st'); [assumption|]. intros p Hp. apply (pair_set st st' R); assumption.
    - apply (pair_moved st st'); [assumption|]. intros p Hp. apply (pair_set st st' R); assumption.
    - apply (pair_moved st st'); [assumption|]. intros p Hp. apply (pair_cursor st st' R); assumption.
    - apply (pair_moved st st'); [assumption|]. intros p Hp. apply (pair_cursor st st' R); assumption.
    - apply (pair_read st st' R _ _ _ (len u)); [apply U|]. rewrite Nat.ltb_lt. lia.
    - apply (pair_provided st st'). rewrite Nat.ltb_lt. intros L. apply (pair_write st st' R _ _ (len u)); [apply U|lia].
    - apply (pair_moved st st'); [assumption|]. intros p Hp. apply (pair_read st st' R _ _ _ (len u)); [apply U|]. rewrite Nat.ltb_lt. lia.
    - apply (pair_provided st st'). rewrite andb_true_iff, !Z.leb_le. intros L. apply (pair_says st st' R). f_equal.
      apply (same_element st st' R _ _ (len u)); [apply U|]. destruct U as [_ U]. lia.
    - apply (pair_on_cursor st st' R); intros u1 U1. apply (pair_provided st st'). intros _. apply (pair_says st st' R). reflexivity.
    - apply (pair_on_cursor st st' R); intros u1 U1. apply (pair_provided st st'). intros _. apply (pair_says st st' R). reflexivity.
  Qed.

  Definition pair_end (m m' : arrays) (e e' : outcome arrays) : Prop :=
    match e, e' with
    | Done r, Done r' =>
        shape r = shape r' /\ agree_inside a k n r r' /\ agree_outside a k n r m /\ agree_outside a k n r' m'
    | Terminates, Terminates | IllFormed, IllFormed | Undefined, Undefined => True
    | _, _ => False
    end.

  Lemma behaves_pair size p : forall st st', rel2 st st' -> Forall derived p ->
    fst (behaves size p st) = fst (behaves size p st') /\
    pair_end (mem st) (mem st') (snd (behaves size p st)) (snd (behaves size p st')).
  Proof.
    induction p as [|c p IH]; intros st st' R F.
    - cbn. split; [reflexivity|]. destruct R. split; [assumption|]. split; [assumption|]. split; apply outside_refl.
    - apply Forall_cons_iff in F. destruct F as [F1 F2]. cbn [behaves].
      pose proof (means_pair size c st st' R F1) as Q.
      destruct (means size c st) as [[s1 o1]| | |], (means size c st') as [[s2 o2]| | |]; cbn [pair] in Q; try contradiction;
        try (split; [reflexivity|exact I]).
      destruct Q as (-> & R' & O1 & O2). destruct (IH s1 s2 R' F2) as [A B].
      destruct (behaves size p s1) as [r1 e1], (behaves size p s2) as [r2 e2]. cbn [fst snd] in *. split; [congruence|].
      destruct e1, e2; cbn [pair_end] in *; try assumption. destruct B as (B1 & B2 & B3 & B4).
      split; [assumption|]. split; [assumption|]. split; intros b j I; rewrite ?B3, ?B4 by assumption; auto.
  Qed.
End Confined.

Theorem confined size p m m' a k n :
  exist size m -> same_lengths m m' -> (k + n <= length (nth a m []))%nat -> (a < length m)%nat -> agree_inside a k n m m' ->
  Forall typed p -> Forall (careful m) p -> Forall derived p ->
  let start m := mkVars m [mkSpan dynamic_extent (At a (Z.of_nat k)) (N.of_nat n)] [] in
  let r := run size p (start m) in
  let r' := run size p (start m') in
  fst r = fst r' /\ pair_end a k n m m' (snd r) (snd r') /\ snd r <> Undefined.
Proof.
  intros X L H Ha A T C D start r r'.
  set (v := mkView (Some a) k n false).
  assert (S1 : start m = repr_state (mkState m [v] [])) by reflexivity.
  assert (S2 : start m' = repr_state (mkState m' [v] [])) by reflexivity.
  assert (W : wf (mkState m [v] [])).
  { destruct (wf_initially size m X) as [W1 _ _]. split; cbn; [exact W1| |constructor]. constructor; [split; assumption|constructor]. }
  assert (W' : wf (mkState m' [v] [])) by exact (wf_shape m' (mkState m [v] []) L W).
  unfold r, r'. rewrite S1, S2.
  destruct (run_behaves size p (mkState m [v] []) W X T C) as [-> U].
  destruct (run_behaves size p (mkState m' [v] []) W' (exist_shape _ _ _ L X) T) as [-> _].
  { eapply Forall_impl; [|exact C]. intros c. apply careful_shape, L. }
  destruct (behaves_pair a k n size p (mkState m [v] []) (mkState m' [v] [])) as [E1 E2]; [|exact D|].
  - split; cbn; try reflexivity; try assumption; try constructor; [|constructor].
    unfold in_view. cbn. split; [reflexivity|lia].
  - split; [exact E1|]. split; [exact E2|exact U].
Qed.
