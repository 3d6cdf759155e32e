(** C52: the helpers of gsl: narrow, at, copy, byte, finally. *)
From Coq Require Import List NArith ZArith Arith Bool Lia Permutation.
From Verif.Spec Require Import View Helpers.
From Verif.Model Require Import Span Helpers.
From Verif.Proof Require Import Span SpanRun Helpers.
Import ListNotations.
Local Open Scope Z_scope.

(** narrow<T>(u) returns u if T has that value, and throws otherwise, for integer types T and U of any size and sign. *)
Theorem C52_narrow :
  forall T U u, (0 < bits T)%N -> (0 < bits U)%N -> has U u = true ->
  narrow T U u = if has T u then Some u else None.
Proof. exact narrow_ok. Qed.
Print Assumptions C52_narrow.

(** at(array, i) returns element i if there is one, and ends the process otherwise. *)
Theorem C52_at :
  forall m a i, exist 1 m -> - 2 ^ 63 <= i < 2 ^ 63 ->
  array_at m a i =
  if (0 <=? i) && (i <? Z.of_nat (length (nth a m []))) then Done (element m (Some a) (Z.to_nat i)) else Terminates.
Proof. exact array_at_ok. Qed.
Print Assumptions C52_at.

(** copy(src, dest), where dest does not begin inside of src: afterwards dest begins with the elements src had, all other
    elements are as before; if dest is too small, the process ends and nothing is written. *)
Theorem C52_copy :
  forall m a k n b j r,
  (a < length m)%nat -> (b < length m)%nat ->
  (k + n <= length (nth a m []))%nat -> (j + r <= length (nth b m []))%nat ->
  (a <> b \/ (j <= k)%nat \/ (k + n <= j)%nat) ->
  let src := mkSpan dynamic_extent (At a (Z.of_nat k)) (N.of_nat n) in
  let dest := mkSpan dynamic_extent (At b (Z.of_nat j)) (N.of_nat r) in
  if (n <=? r)%nat then exists m', copy m src dest = Done m' /\ holds m' m b j (firstn n (skipn k (nth a m [])))
  else copy m src dest = Terminates.
Proof. exact copy_ok. Qed.
Print Assumptions C52_copy.

(** Where dest begins inside of src, nothing stops the copy, and dest does not get the elements src had. *)
Theorem C52_copy_overlap_refuted :
  ~ (forall m a k n b j r,
     (a < length m)%nat -> (b < length m)%nat ->
     (k + n <= length (nth a m []))%nat -> (j + r <= length (nth b m []))%nat -> (n <= r)%nat ->
     let src := mkSpan dynamic_extent (At a (Z.of_nat k)) (N.of_nat n) in
     let dest := mkSpan dynamic_extent (At b (Z.of_nat j)) (N.of_nat r) in
     exists m', copy m src dest = Done m' /\ holds m' m b j (firstn n (skipn k (nth a m [])))).
Proof.
  intros H. destruct (H [[1; 2; 3]%N] 0 0 2 0 1 2)%nat as (m' & E & _ & A & _); cbn; try lia.
  vm_compute in E. injection E as <-. specialize (A 1%nat ltac:(cbn; lia)). discriminate A.
Qed.
Print Assumptions C52_copy_overlap_refuted.

(** the operators of byte, bit by bit *)
Theorem C52_byte_bits :
  forall x y i, (i < 8)%N ->
  N.testbit (byte_or x y) i = N.testbit x i || N.testbit y i /\
  N.testbit (byte_and x y) i = N.testbit x i && N.testbit y i /\
  N.testbit (byte_xor x y) i = xorb (N.testbit x i) (N.testbit y i) /\
  N.testbit (byte_not x) i = negb (N.testbit x i) /\
  (byte_or x y < 256)%N /\ (byte_and x y < 256)%N /\ (byte_xor x y < 256)%N /\ (byte_not x < 256)%N.
Proof.
  intros x y i H. unfold byte_or, byte_and, byte_xor, byte_not. rewrite !to_byte_bits by exact H.
  rewrite Z.lor_spec, Z.land_spec, Z.lxor_spec, Z.lnot_spec, !Z.testbit_of_N by lia.
  repeat (split; [first [reflexivity|apply to_byte_lt]|]). apply to_byte_lt.
Qed.
Print Assumptions C52_byte_bits.

(** shifts: up to 24 to the left and up to 31 to the right *)
Theorem C52_byte_shift :
  forall b s, (b < 256)%N ->
  (0 <= s <= 24 -> byte_shl b s = Done (b * 2 ^ Z.to_N s mod 256)%N) /\
  (0 <= s < 32 -> byte_shr b s = Done (b / 2 ^ Z.to_N s)%N).
Proof. intros b s H. split; intros L; [exact (byte_shl_ok b s H L)|exact (byte_shr_ok b s H L)]. Qed.
Print Assumptions C52_byte_shift.

(** Not so for all shifts that leave the int in range: 255 << 25 is no value of unsigned. *)
Theorem C52_byte_shift_refuted :
  ~ (forall b s, (b < 256)%N -> 0 <= s < 32 -> byte_shl b s = Done (b * 2 ^ Z.to_N s mod 256)%N).
Proof. intros H. specialize (H 255%N 25 ltac:(lia) ltac:(lia)). discriminate H. Qed.
Print Assumptions C52_byte_shift_refuted.

(** finally: a program that makes, moves and destroys guards runs the action of a guard when its last owner is destroyed,
    and at no other time. *)
Theorem C52_finally :
  forall p, scoped 0 [] p -> guard_run p ([], []) = Done (run_order 0 [] p).
Proof. exact guard_run_order. Qed.
Print Assumptions C52_finally.

(** When all guards are destroyed, every action has been run as often as it was given to finally(). *)
Theorem C52_finally_once :
  forall p, scoped 0 [] p -> all_destroyed p ->
  exists ran, guard_run p ([], []) = Done ran /\ Permutation ran (actions p).
Proof. exact finally_once. Qed.
Print Assumptions C52_finally_once.

(** ** Cases *)

Definition int32 := mkInt true 32.
Definition uint8 := mkInt false 8.
Definition size_t := mkInt false 64.
Example C52_narrowing :
  narrow uint8 int32 255 = Some 255 /\ narrow uint8 int32 256 = None /\ narrow uint8 int32 (-1) = None /\
  narrow int32 size_t (2 ^ 31 - 1) = Some (2 ^ 31 - 1) /\ narrow int32 size_t (2 ^ 64 - 1) = None.
Proof. repeat split. Qed.
Example C52_narrowing_meets : has int32 256 = true /\ has size_t (2 ^ 64 - 1) = true /\ has uint8 256 = false.
Proof. repeat split. Qed.

Example C52_ats : array_at [[4; 5; 6]%N] 0 2 = Done 6%N /\ array_at [[4; 5; 6]%N] 0 3 = Terminates /\ array_at [[4; 5; 6]%N] 0 (-1) = Terminates.
Proof. repeat split. Qed.

(** to the left inside one array, between arrays, and into too small a span *)
Example C52_copies :
  let m := [[1; 2; 3; 4]; [5; 6]]%N in
  let part a k n := mkSpan dynamic_extent (At a k) n in
  copy m (part 0%nat 1 3%N) (part 0%nat 0 3%N) = Done [[2; 3; 4; 4]; [5; 6]]%N /\
  copy m (part 1%nat 0 2%N) (part 0%nat 1 3%N) = Done [[1; 5; 6; 4]; [5; 6]]%N /\
  copy m (part 0%nat 0 3%N) (part 1%nat 0 2%N) = Terminates.
Proof. repeat split. Qed.

Example C52_bytes :
  byte_or 0xa5 0x0f = 0xaf%N /\ byte_and 0xa5 0x0f = 0x05%N /\ byte_xor 0xa5 0x0f = 0xaa%N /\ byte_not 0xa5 = 0x5a%N /\
  byte_shl 0xa5 4 = Done 0x50%N /\ byte_shr 0xa5 4 = Done 0x0a%N /\ byte_shl 255 25 = Undefined.
Proof. repeat split. Qed.

(** guard 0 is moved into guard 2; its action is run when guard 2 is destroyed *)
Definition guards : list guard_cmd := [Finally 7; Finally 8; MoveFrom 0; Destroy 0; Destroy 2; Destroy 1].
Example C52_guards : guard_run guards ([], []) = Done [7; 8]%nat.
Proof. reflexivity. Qed.
Example C52_guards_meet : scoped 0 [] guards /\ all_destroyed guards.
Proof.
  split; [cbn; intuition lia|]. intros g H. unfold makings in H. cbn in H.
  destruct g as [|[|[|g]]]; [right; right; right; left|do 5 right; left|do 4 right; left|lia]; reflexivity.
Qed.
