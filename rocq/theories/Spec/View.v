(** Views of arrays and cursors in views: what programs on gsl::span are to do. *)
From Coq Require Import List NArith ZArith Arith Bool.
Import ListNotations.
Local Open Scope nat_scope.

(** ** Programs *)

(** the arrays of the caller; the values of the elements are natural numbers *)
Definition arrays := list (list N).

(** comparisons *)
Inductive rel := Eq | Ne | Lt | Le | Gt | Ge.

(** One statement.  Views and cursors are numbered in the order of their making; arrays by their place in memory.
    N is the type size_t, Z the type ptrdiff_t. *)
Inductive cmd :=
(* making views *)
| Empty                                (* span<T>() *)
| OfArray (a : nat)                    (* span<T, n>(array) for an array of n elements *)
| OfContainer (a : nat)                (* span<T>(container) *)
| OfCount (a : nat) (i n : N)          (* span<T>(array + i, n) *)
| OfRange (a : nat) (i j : N)          (* span<T>(array + i, array + j) *)
| Convert (extent : option N) (v : nat) (* span<T, extent>(v), span<T>(v) *)
| First (v : nat) (n : N)              (* v.first(n) *)
| Last (v : nat) (n : N)               (* v.last(n) *)
| Sub (v : nat) (o : N) (n : option N) (* v.subspan(o, n), v.subspan(o) *)
| FirstT (v : nat) (n : N)             (* v.first<n>() *)
| LastT (v : nat) (n : N)              (* v.last<n>() *)
| SubT (v : nat) (o : N) (n : option N) (* v.subspan<o, n>(), v.subspan<o>() *)
(* looking at them *)
| Size (v : nat)
| SSize (v : nat)
| SizeBytes (v : nat)
| IsEmpty (v : nat)
| Get (v : nat) (i : N)                (* v[i] *)
| Set_ (v : nat) (i x : N)             (* v[i] = x *)
| Front (v : nat)
| Back (v : nat)
| At_ (v : nat) (i : Z)                (* at(v, i) *)
| Cmp (r : rel) (v w : nat)            (* v == w and so on *)
(* cursors *)
| Begin (v : nat)
| End_ (v : nat)
| CopyC (c : nat)                      (* auto d = c *)
| Inc (c : nat)                        (* ++c *)
| Dec (c : nat)                        (* --c *)
| Move (c : nat) (n : Z)               (* c += n *)
| MoveBack (c : nat) (n : Z)           (* c -= n *)
| Plus (c : nat) (n : Z)               (* auto d = c + n *)
| Minus (c : nat) (n : Z)              (* auto d = c - n *)
| Deref (c : nat)                      (* *c *)
| Assign (c : nat) (x : N)             (* *c = x *)
| Index (c : nat) (n : Z)              (* c[n] *)
| DerefBack (c : nat)                  (* *r for a reverse iterator r with base c *)
| Diff (c d : nat)                     (* c - d *)
| CmpC (r : rel) (c d : nat).          (* c == d and so on *)

(** How a statement ends: with a value; the process is terminated; the behaviour is undefined; a static_assert or the
    type checker refuses the program. *)
Inductive outcome (A : Type) :=
| Done (a : A)
| Terminates
| Undefined
| IllFormed.
Arguments Done {A} a.
Arguments Terminates {A}.
Arguments Undefined {A}.
Arguments IllFormed {A}.

(** ** Meaning *)

(** elements [start], ..., [start + count - 1] of an array; without an array an empty view.
    [fixed]: the number of elements is part of the type. *)
Record view := mkView { array : option nat; start : nat; count : nat; fixed : bool }.
(** a place before an element or behind the last one of a view *)
Record cursor := mkCursor { over : option nat; from : nat; len : nat; place : nat }.
Record state := mkState { mem : arrays; views : list view; cursors : list cursor }.

Definition content (m : arrays) (v : view) : list N :=
  match array v with
  | Some a => firstn (count v) (skipn (start v) (nth a m []))
  | None => []
  end.

(** the part of a view with [n] elements beginning with element [o] *)
Definition part (o n : nat) (fix_ : bool) (v : view) : view := mkView (array v) (start v + o) n fix_.
Definition cursor_at (v : view) (k : nat) : cursor := mkCursor (array v) (start v) (count v) k.
Definition place_at (c : cursor) (k : nat) : cursor := mkCursor (over c) (from c) (len c) k.

Fixpoint replace {A} (k : nat) (x : A) (l : list A) : list A :=
  match l, k with
  | [], _ => []
  | _ :: l, O => x :: l
  | y :: l, S k => y :: replace k x l
  end.
Definition write (m : arrays) (a : option nat) (k : nat) (x : N) : arrays :=
  match a with Some a => replace a (replace k x (nth a m [])) m | None => m end.
Definition element (m : arrays) (a : option nat) (k : nat) : N :=
  match a with Some a => nth k (nth a m []) 0%N | None => 0%N end.

(** lexicographic order *)
Fixpoint before (l r : list N) : bool :=
  match l, r with
  | [], [] => false
  | [], _ :: _ => true
  | _ :: _, [] => false
  | x :: l, y :: r => (x <? y)%N || ((x =? y)%N && before l r)
  end.
Fixpoint same (l r : list N) : bool :=
  match l, r with
  | [], [] => true
  | x :: l, y :: r => (x =? y)%N && same l r
  | _, _ => false
  end.
Definition compare (r : rel) (x y : list N) : bool :=
  match r with
  | Eq => same x y
  | Ne => negb (same x y)
  | Lt => before x y
  | Le => negb (before y x)
  | Gt => before y x
  | Ge => negb (before x y)
  end.
Definition compare_places (r : rel) (x y : nat) : bool :=
  match r with
  | Eq => x =? y
  | Ne => negb (x =? y)
  | Lt => x <? y
  | Le => x <=? y
  | Gt => y <? x
  | Ge => y <=? x
  end.

Definition truth (b : bool) : Z := if b then 1%Z else 0%Z.

Definition new_view (st : state) (v : view) : outcome (state * list Z) :=
  Done (mkState (mem st) (views st ++ [v]) (cursors st), []).
Definition new_cursor (st : state) (c : cursor) : outcome (state * list Z) :=
  Done (mkState (mem st) (views st) (cursors st ++ [c]), []).
Definition set_cursor (st : state) (k : nat) (c : cursor) : outcome (state * list Z) :=
  Done (mkState (mem st) (views st) (replace k c (cursors st)), []).
Definition set_element (st : state) (a : option nat) (k : nat) (x : N) : outcome (state * list Z) :=
  Done (mkState (write (mem st) a k x) (views st) (cursors st), []).
Definition says (st : state) (z : Z) : outcome (state * list Z) := Done (st, [z]).

Definition on_view (st : state) (v : nat) (f : view -> outcome (state * list Z)) : outcome (state * list Z) :=
  match nth_error (views st) v with Some v => f v | None => IllFormed end.
Definition on_cursor (st : state) (c : nat) (f : cursor -> outcome (state * list Z)) : outcome (state * list Z) :=
  match nth_error (cursors st) c with Some c => f c | None => IllFormed end.
Definition on_array (st : state) (a : nat) (f : list N -> outcome (state * list Z)) : outcome (state * list Z) :=
  match nth_error (mem st) a with Some l => f l | None => IllFormed end.

(** a demand on the caller: if it does not hold the process ends *)
Definition provided (b : bool) (r : outcome (state * list Z)) : outcome (state * list Z) := if b then r else Terminates.
(** a demand known from the types of the views *)
Definition checked (b : bool) (r : outcome (state * list Z)) : outcome (state * list Z) := if b then r else IllFormed.

Definition same_range (c d : cursor) : bool :=
  match over c, over d with
  | Some a, Some b => a =? b
  | None, None => true
  | _, _ => false
  end && (from c =? from d) && (len c =? len d).

Definition moved (st : state) (c : cursor) (n : Z) (f : nat -> outcome (state * list Z)) : outcome (state * list Z) :=
  let p := (Z.of_nat (place c) + n)%Z in
  provided ((0 <=? p)%Z && (p <=? Z.of_nat (len c))%Z) (f (Z.to_nat p)).

(** the end of a part of [n] elements beginning with element [o] *)
Definition fits (v : view) (o : N) (n : option N) : bool :=
  ((o <=? N.of_nat (count v)) && match n with Some n => o + n <=? N.of_nat (count v) | None => true end)%N.
Definition part_size (v : view) (o : N) (n : option N) : nat :=
  match n with Some n => N.to_nat n | None => count v - N.to_nat o end.

(** Statement [c] of a program; [size] is the number of bytes of an element. *)
Definition means (size : N) (c : cmd) (st : state) : outcome (state * list Z) :=
  match c with
  | Empty => new_view st (mkView None 0 0 false)
  | OfArray a => on_array st a (fun l => new_view st (mkView (Some a) 0 (length l) true))
  | OfContainer a => on_array st a (fun l => new_view st (mkView (Some a) 0 (length l) false))
  | OfCount a i n => on_array st a (fun _ => new_view st (mkView (Some a) (N.to_nat i) (N.to_nat n) false))
  | OfRange a i j => on_array st a (fun _ => new_view st (mkView (Some a) (N.to_nat i) (N.to_nat j - N.to_nat i) false))
  | Convert None v => on_view st v (fun v => new_view st (part 0 (count v) false v))
  | Convert (Some e) v => on_view st v (fun v =>
      let fit := (e =? N.of_nat (count v))%N in
      if fixed v then checked fit (new_view st v) else provided fit (new_view st (part 0 (count v) true v)))
  | First v n => on_view st v (fun v => provided (fits v 0 (Some n)) (new_view st (part 0 (N.to_nat n) false v)))
  | Last v n => on_view st v (fun v =>
      provided (fits v 0 (Some n)) (new_view st (part (count v - N.to_nat n) (N.to_nat n) false v)))
  | Sub v o n => on_view st v (fun v => provided (fits v o n) (new_view st (part (N.to_nat o) (part_size v o n) false v)))
  | FirstT v n => on_view st v (fun v =>
      (if fixed v then checked else provided) (fits v 0 (Some n)) (new_view st (part 0 (N.to_nat n) true v)))
  | LastT v n => on_view st v (fun v =>
      (if fixed v then checked else provided) (fits v 0 (Some n)) (new_view st (part (count v - N.to_nat n) (N.to_nat n) true v)))
  | SubT v o n => on_view st v (fun v =>
      (if fixed v then checked else provided) (fits v o n)
        (new_view st (part (N.to_nat o) (part_size v o n) (match n with Some _ => true | None => fixed v end) v)))
  | Size v | SSize v => on_view st v (fun v => says st (Z.of_nat (count v)))
  | SizeBytes v => on_view st v (fun v => says st (Z.of_nat (count v) * Z.of_N size))
  | IsEmpty v => on_view st v (fun v => says st (truth (count v =? 0)))
  | Get v i => on_view st v (fun v =>
      provided (i <? N.of_nat (count v))%N (says st (Z.of_N (element (mem st) (array v) (start v + N.to_nat i)))))
  | Set_ v i x => on_view st v (fun v =>
      provided (i <? N.of_nat (count v))%N (set_element st (array v) (start v + N.to_nat i) x))
  | Front v => on_view st v (fun v =>
      provided (0 <? count v) (says st (Z.of_N (element (mem st) (array v) (start v)))))
  | Back v => on_view st v (fun v =>
      provided (0 <? count v) (says st (Z.of_N (element (mem st) (array v) (start v + (count v - 1))))))
  | At_ v i => on_view st v (fun v =>
      provided ((0 <=? i) && (i <? Z.of_nat (count v)))%Z (says st (Z.of_N (element (mem st) (array v) (start v + Z.to_nat i)))))
  | Cmp r v w => on_view st v (fun v => on_view st w (fun w =>
      (* only == accepts two types *)
      checked (match r with Eq => true | _ => eqb (fixed v) (fixed w) && (negb (fixed v) || (count v =? count w)) end)
        (says st (truth (compare r (content (mem st) v) (content (mem st) w))))))
  | Begin v => on_view st v (fun v => new_cursor st (cursor_at v 0))
  | End_ v => on_view st v (fun v => new_cursor st (cursor_at v (count v)))
  | CopyC c => on_cursor st c (fun c => new_cursor st c)
  | Inc k => on_cursor st k (fun c => moved st c 1 (fun p => set_cursor st k (place_at c p)))
  | Dec k => on_cursor st k (fun c => moved st c (-1) (fun p => set_cursor st k (place_at c p)))
  | Move k n => on_cursor st k (fun c => moved st c n (fun p => set_cursor st k (place_at c p)))
  | MoveBack k n => on_cursor st k (fun c => moved st c (- n) (fun p => set_cursor st k (place_at c p)))
  | Plus k n => on_cursor st k (fun c => moved st c n (fun p => new_cursor st (place_at c p)))
  | Minus k n => on_cursor st k (fun c => moved st c (- n) (fun p => new_cursor st (place_at c p)))
  | Deref k => on_cursor st k (fun c =>
      provided (place c <? len c) (says st (Z.of_N (element (mem st) (over c) (from c + place c)))))
  | Assign k x => on_cursor st k (fun c =>
      provided (place c <? len c) (set_element st (over c) (from c + place c) x))
  | Index k n => on_cursor st k (fun c => moved st c n (fun p =>
      provided (p <? len c) (says st (Z.of_N (element (mem st) (over c) (from c + p))))))
  | DerefBack k => on_cursor st k (fun c => moved st c (-1) (fun p =>
      says st (Z.of_N (element (mem st) (over c) (from c + p)))))
  | Diff j k => on_cursor st j (fun c => on_cursor st k (fun d =>
      provided (same_range c d) (says st (Z.of_nat (place c) - Z.of_nat (place d)))))
  | CmpC r j k => on_cursor st j (fun c => on_cursor st k (fun d =>
      provided (same_range c d) (says st (truth (compare_places r (place c) (place d))))))
  end.

(** what a program says, and how it ends *)
Fixpoint behaves (size : N) (p : list cmd) (st : state) : list Z * outcome arrays :=
  match p with
  | [] => ([], Done (mem st))
  | c :: p =>
      match means size c st with
      | Done (st, said) => let (rest, e) := behaves size p st in (said ++ rest, e)
      | Terminates => ([], Terminates)
      | Undefined => ([], Undefined)
      | IllFormed => ([], IllFormed)
      end
  end.

Definition initially (m : arrays) : state := mkState m [] [].

(** ** Demands on the caller *)

(** numbers are values of their types *)
Definition is_size (n : N) : Prop := (n < 2 ^ 64)%N.
Definition is_distance (n : Z) : Prop := (- 2 ^ 63 <= n < 2 ^ 63)%Z.
Definition is_count (n : option N) : Prop := match n with Some n => (n < 2 ^ 64 - 1)%N | None => True end.
Definition typed (c : cmd) : Prop :=
  match c with
  | OfCount _ i n | OfRange _ i n => is_size i /\ is_size n
  | Convert e _ => is_count e
  | First _ n | Last _ n | Get _ n => is_size n
  | FirstT _ n | LastT _ n => is_count (Some n)
  | Sub _ o n | SubT _ o n => is_size o /\ is_count n
  | Set_ _ i _ => is_size i
  | At_ _ i => is_distance i
  | Move _ n | MoveBack _ n | Plus _ n | Minus _ n | Index _ n => is_distance n
  | _ => True
  end.
(** arrays that exist: their bytes can be counted with ptrdiff_t *)
Definition exist (size : N) (m : arrays) : Prop :=
  (0 < size)%N /\ Forall (fun l => (N.of_nat (length l) * size < 2 ^ 63)%N) m.
(** a view made of pointers is a part of the array, and no cursor is moved by the least ptrdiff_t *)
Definition careful (m : arrays) (c : cmd) : Prop :=
  match c with
  | OfCount a i n => (N.to_nat i + N.to_nat n <= length (nth a m []))
  | OfRange a i j => (N.to_nat i <= N.to_nat j <= length (nth a m []))
  | Move _ n | MoveBack _ n | Plus _ n | Minus _ n | Index _ n => (n <> - 2 ^ 63)%Z
  | _ => True
  end.

(** the caller's arrays are not named: everything is made from the views at hand *)
Definition derived (c : cmd) : Prop :=
  match c with OfArray _ | OfContainer _ | OfCount _ _ _ | OfRange _ _ _ => False | _ => True end.

(** element [j] of array [b] is one of the [n] elements of array [a] that begin with element [k] *)
Definition belongs (a k n b j : nat) : Prop := b = a /\ k <= j < k + n.
Definition same_lengths (m m' : arrays) : Prop := map (@length N) m = map (@length N) m'.
Definition agree_inside (a k n : nat) (m m' : arrays) : Prop :=
  forall b j, belongs a k n b j -> element m (Some b) j = element m' (Some b) j.
Definition agree_outside (a k n : nat) (m m' : arrays) : Prop :=
  forall b j, ~ belongs a k n b j -> element m (Some b) j = element m' (Some b) j.

(** the first half of [careful] *)
Definition proper_views (m : arrays) (c : cmd) : Prop :=
  match c with
  | OfCount a i n => (N.to_nat i + N.to_nat n <= length (nth a m []))
  | OfRange a i j => (N.to_nat i <= N.to_nat j <= length (nth a m []))
  | _ => True
  end.
(** the second half, and pointers that are only known to point into the array *)
Definition valid_pointers (m : arrays) (c : cmd) : Prop :=
  match c with
  | OfRange a i j => (N.to_nat i <= length (nth a m [])) /\ (N.to_nat j <= length (nth a m []))
  | _ => careful m c
  end.
