(** C51: programs on gsl::span and its iterators. *)
From Coq Require Import List NArith ZArith Arith Bool Lia.
From Verif.Spec Require Import View.
From Verif.Model Require Import Span.
From Verif.Proof Require Import Span SpanRun.
Import ListNotations.
Local Open Scope Z_scope.

(** Every program on views and cursors says what Spec/View.v says and ends as it says: a statement that asks for elements
    which are not there ends the process; nothing is undefined.  [size] is sizeof(T). *)
Theorem C51_span :
  forall size m p,
  exist size m -> Forall typed p -> Forall (careful m) p ->
  run size p (start_vars m) = behaves size p (initially m) /\ snd (run size p (start_vars m)) <> Undefined.
Proof.
  intros size m p X T C. destruct (run_behaves size p (initially m) (wf_initially size m X) X T C) as [A B].
  change (start_vars m) with (repr_state (initially m)). rewrite A. exact (conj eq_refl B).
Qed.
Print Assumptions C51_span.

(** A program that is given one span (elements k, ..., k + n - 1 of array a) and names no array itself: whatever it does,
    what it says, how it ends and what it leaves in the span depend on the elements of the span alone, and no other
    element is changed. *)
Theorem C51_confined :
  forall size m m' p a k n,
  exist size m -> same_lengths m m' -> (a < length m)%nat -> (k + n <= length (nth a m []))%nat ->
  agree_inside a k n m m' ->
  Forall typed p -> Forall (careful m) p -> Forall derived p ->
  let given m := mkVars m [mkSpan dynamic_extent (At a (Z.of_nat k)) (N.of_nat n)] [] in
  fst (run size p (given m)) = fst (run size p (given m')) /\
  match snd (run size p (given m)), snd (run size p (given m')) with
  | Done r, Done r' => agree_inside a k n r r' /\ agree_outside a k n r m /\ agree_outside a k n r' m'
  | Terminates, Terminates | IllFormed, IllFormed => True
  | _, _ => False
  end.
Proof.
  intros size m m' p a k n X L A K I T C D. cbv zeta.
  destruct (confined size p m m' a k n X L K A I T C D) as (E & P & U). cbv zeta in E, P, U. split; [exact E|].
  destruct (snd (run size p (mkVars m _ _))), (snd (run size p (mkVars m' _ _))); cbn [pair_end] in P; try contradiction.
  - exact (proj2 P).
  - exact P.
  - exact P.
Qed.
Print Assumptions C51_confined.

(** Not so when a cursor is moved by the least ptrdiff_t: the check computes -n. *)
Theorem C51_least_distance_refuted :
  ~ (forall size m p, exist size m -> Forall typed p -> Forall (proper_views m) p ->
     snd (run size p (start_vars m)) <> Undefined).
Proof.
  intros H. apply (H 1%N [[7; 8; 9]%N] [OfArray 0; End_ 0; Move 0 (- 2 ^ 63)]); [|repeat constructor; lia|repeat constructor|reflexivity].
  split; [reflexivity|]. repeat constructor.
Qed.
Print Assumptions C51_least_distance_refuted.

(** Not so when a span is made of two pointers into one array in the wrong order: the span is made, with 2^64 - 2 elements. *)
Theorem C51_reversed_refuted :
  ~ (forall size m p, exist size m -> Forall typed p -> Forall (valid_pointers m) p ->
     snd (run size p (start_vars m)) <> Undefined).
Proof.
  intros H. apply (H 1%N [[7; 8; 9]%N] [OfRange 0 2 0; Get 0 1]);
    [|repeat constructor|repeat constructor; vm_compute; lia|reflexivity].
  split; [reflexivity|]. repeat constructor.
Qed.
Print Assumptions C51_reversed_refuted.

(** ** Cases *)

Definition two_arrays : arrays := [[10; 20; 30; 40; 50]; [30; 40]]%N.
Definition tour : list cmd :=
  [ OfArray 0; OfContainer 1;                        (* views 0, 1 *)
    Sub 0 2 None; Sub 0 2 (Some 2%N); First 2 2;       (* views 2, 3, 4: elements 30 40 50, 30 40, 30 40 *)
    Cmp Eq 3 1; Cmp Lt 3 2; Cmp Ge 4 2;
    Last 0 1; Back 5; SubT 0 1 (Some 2%N); FirstT 6 1; Front 7;
    Set_ 3 1 41; Get 0 3; Cmp Gt 3 1; SizeBytes 2;
    Begin 2; End_ 2; Diff 1 0; Plus 0 2; Deref 2; Index 0 1; DerefBack 1; Dec 1; Assign 1 51; CmpC Lt 0 1; At_ 0 4;
    Convert (Some 3%N) 2; LastT 8 2; SSize 9; Empty; IsEmpty 10; Begin 10; End_ 10; CmpC Eq 3 4 ].
(** a walk through most of the interface; the elements are of 4 bytes *)
Example C51_tour :
  run 4 tour (start_vars two_arrays) =
  ([1; 1; 0; 50; 20; 41; 1; 12; 3; 50; 41; 50; 1; 51; 2; 1; 1], Done [[10; 20; 30; 41; 51]; [30; 40]]%N) /\
  behaves 4 tour (initially two_arrays) = run 4 tour (start_vars two_arrays).
Proof.
  split; [vm_compute; reflexivity|]. symmetry. refine (proj1 (C51_span 4 two_arrays tour _ _ _)).
  - split; [reflexivity|]. repeat constructor.
  - unfold tour. repeat constructor; cbn; lia.
  - unfold tour. repeat constructor; cbn; lia.
Qed.

(** statements that ask too much end the process: an element behind the end, a subspan that is too long, the element before
    the first, cursors of different views *)
Example C51_stops :
  Forall (fun p => run 4 (OfArray 0 :: Begin 0 :: p) (start_vars two_arrays) = ([], Terminates))
    [[Get 0 5]; [Sub 0 2 (Some 4%N)]; [Sub 0 6 None]; [DerefBack 0]; [Move 0 6]; [MoveBack 0 1]; [At_ 0 (-1)];
     [End_ 0; Deref 1]; [First 0 4; Begin 1; Diff 0 1]; [Convert None 0; Convert (Some 4%N) 1]] /\
  run 4 [OfArray 0; FirstT 0 6] (start_vars two_arrays) = ([], IllFormed).
Proof. split; [repeat constructor|reflexivity]. Qed.

(** a reader and writer of the second and third element of array 0 does not notice that other elements differ *)
Definition other_arrays : arrays := [[99; 20; 30; 98; 97]; [96; 95]]%N.
Definition guest : list cmd := [Begin 0; Deref 0; Inc 0; Assign 0 31; Back 0; Inc 0; CmpC Eq 0 0; First 0 1; Set_ 1 0 21].
Example C51_guest :
  run 4 guest (mkVars two_arrays [mkSpan dynamic_extent (At 0 1) 2] []) = ([20; 31; 1], Done [[10; 21; 31; 40; 50]; [30; 40]]%N) /\
  run 4 guest (mkVars other_arrays [mkSpan dynamic_extent (At 0 1) 2] []) = ([20; 31; 1], Done [[99; 21; 31; 98; 97]; [96; 95]]%N) /\
  run 4 (guest ++ [Deref 0]) (mkVars two_arrays [mkSpan dynamic_extent (At 0 1) 2] []) = ([20; 31; 1], Terminates).
Proof. vm_compute. auto. Qed.
Example C51_guest_meets :
  exist 4 two_arrays /\ same_lengths two_arrays other_arrays /\ agree_inside 0 1 2 two_arrays other_arrays /\
  Forall typed guest /\ Forall (careful two_arrays) guest /\ Forall derived guest.
Proof.
  split; [split; [reflexivity|repeat constructor]|]. split; [reflexivity|]. split.
  - intros b j [-> H]. destruct j as [|[|[|j]]]; [lia|reflexivity|reflexivity|lia].
  - split; [unfold guest; repeat constructor|]. split; [unfold guest; repeat constructor|unfold guest; repeat constructor].
Qed.
