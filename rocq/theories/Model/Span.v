(** Model of gsl::span and its iterators, pointer by pointer.

    A pointer is null or designates a place in one of the caller's arrays; arithmetic that leaves the array, and comparing
    pointers into different arrays for order, is undefined.  Pointers into different arrays are never equal.  The lifetime
    of the arrays and the conversions between element types (as_bytes, const) are left out.  Expects, Ensures terminate
    the process      gsl/assert:112-128 *)
From Coq Require Import List NArith ZArith Arith Bool.
From Verif.Base Require Import CWord.
From Verif.Spec Require Import View.
Import ListNotations.
Local Open Scope Z_scope.

Definition bind {A B} (r : outcome A) (k : A -> outcome B) : outcome B :=
  match r with
  | Done a => k a
  | Terminates => Terminates
  | Undefined => Undefined
  | IllFormed => IllFormed
  end.
Notation "'do' x ':=' r 'in' k" := (bind r (fun x => k)) (at level 200, x pattern, r at level 100, k at level 200, right associativity).

Definition Expects (b : bool) : outcome unit := if b then Done tt else Terminates.
Definition static_assert (b : bool) : outcome unit := if b then Done tt else IllFormed.

(** ** Pointers *)

Inductive pointer := Null | At (a : nat) (k : Z).

Definition array_size (m : arrays) (a : nat) : Z := Z.of_nat (length (nth a m [])).
Definition padd (m : arrays) (p : pointer) (n : Z) : outcome pointer :=
  match p with
  | Null => if n =? 0 then Done Null else Undefined
  | At a k => if (0 <=? k + n) && (k + n <=? array_size m a) then Done (At a (k + n)) else Undefined
  end.
Definition pdiff (p q : pointer) : outcome Z :=
  match p, q with
  | Null, Null => Done 0
  | At a k, At b j => if Nat.eqb a b then Done (k - j) else Undefined
  | _, _ => Undefined
  end.
Definition pnull (p : pointer) : bool := match p with Null => true | At _ _ => false end.
Definition peq (p q : pointer) : bool :=
  match p, q with
  | Null, Null => true
  | At a k, At b j => Nat.eqb a b && (k =? j)
  | _, _ => false
  end.
Definition plt (p q : pointer) : outcome bool := do d := pdiff p q in Done (d <? 0).
Definition ple (p q : pointer) : outcome bool := do d := pdiff p q in Done (d <=? 0).
Definition load (m : arrays) (p : pointer) : outcome N :=
  match p with
  | At a k => if (0 <=? k) && (k <? array_size m a) then Done (nth (Z.to_nat k) (nth a m []) 0%N) else Undefined
  | Null => Undefined
  end.
Definition store (m : arrays) (p : pointer) (x : N) : outcome arrays :=
  match p with
  | At a k =>
      if (0 <=? k) && (k <? array_size m a) then Done (replace a (replace (Z.to_nat k) x (nth a m [])) m) else Undefined
  | Null => Undefined
  end.

(** -n for a ptrdiff_t *)
Definition neg (n : Z) : outcome Z := if n =? - 2 ^ 63 then Undefined else Done (- n).
(** narrow_cast<std::size_t>, static_cast<std::ptrdiff_t> *)
Definition to_size (n : Z) : N := Z.to_N (n mod 2 ^ 64).
Definition to_distance (n : N) : Z := if (n <? 2 ^ 63)%N then Z.of_N n else Z.of_N n - 2 ^ 64.

(** ** class span *)

(** gsl/span_ext:44 *)
Definition dynamic_extent : N := (2 ^ 64 - 1)%N.

(** span<T, Extent>: storage_type holds data_ and, for dynamic_extent only, size_      gsl/span:368-409, 710-735 *)
Record span := mkSpan { Extent : N; data : pointer; size_ : N }.
(** gsl/span:380, 405, 638 *)
Definition size (s : span) : N := if (Extent s =? dynamic_extent)%N then size_ s else Extent s.

(** extent_type(size), extent_type(extent_type<Other>)      gsl/span:376-378, 395-403, 410-415 *)
Definition extent_type (E n : N) : outcome unit :=
  Expects (if (E =? dynamic_extent)%N then negb (n =? dynamic_extent)%N else (n =? E)%N).
(** storage_type(KnownNotNull, ext)      gsl/span:718-722 *)
Definition storage_known (E : N) (p : pointer) (n : N) : outcome span :=
  do _ := extent_type E n in Done (mkSpan E p n).
(** storage_type(pointer, ext)      gsl/span:724-728 *)
Definition storage (E : N) (p : pointer) (n : N) : outcome span :=
  do _ := extent_type E n in
  let s := mkSpan E p n in
  do _ := Expects (negb (pnull p) || (size s =? 0)%N) in
  Done s.

(** span()      gsl/span:457-458 *)
Definition span_default : outcome span := storage dynamic_extent Null 0.
(** span(pointer ptr, size_type count)      gsl/span:460-468 *)
Definition span_count (E : N) (p : pointer) (n : N) : outcome span :=
  do s := storage E p n in
  if (E =? dynamic_extent)%N then Done s else do _ := Expects (n =? E)%N in Done s.
(** span(pointer firstElem, pointer lastElem), of dynamic extent      gsl/span:477-480 *)
Definition span_range (p q : pointer) : outcome span :=
  do d := pdiff q p in storage dynamic_extent p (to_size d).
(** span(element_type (&arr)[N]), span(std::array<T, N>&)      gsl/span:482-504 *)
Definition span_array (m : arrays) (a : nat) : outcome span :=
  let n := N.of_nat (length (nth a m [])) in storage_known n (At a 0) n.
(** span(Container&)      gsl/span:528-556 *)
Definition span_container (m : arrays) (a : nat) : outcome span :=
  span_count dynamic_extent (At a 0) (N.of_nat (length (nth a m []))).
(** span(const span<OtherElementType, OtherExtent>&); no constructor accepts two different fixed extents
    gsl/span:558-577 *)
Definition span_convert (E : N) (s : span) : outcome span :=
  do _ := static_assert ((E =? dynamic_extent)%N || (E =? Extent s)%N || (Extent s =? dynamic_extent)%N) in
  if (E =? Extent s)%N then Done s else storage E (data s) (size s).

(** subspan(offset, count) of a span of dynamic extent      gsl/span:758-767 *)
Definition make_subspan_dynamic (m : arrays) (s : span) (offset count : N) : outcome span :=
  do _ := Expects (offset <=? size s)%N in
  if (count =? dynamic_extent)%N then
    do p := padd m (data s) (Z.of_N offset) in storage_known dynamic_extent p (usub 64 (size s) offset)
  else
    do _ := Expects (count <=? usub 64 (size s) offset)%N in
    do p := padd m (data s) (Z.of_N offset) in storage_known dynamic_extent p count.
(** gsl/span:747-753, 758-767 *)
Definition make_subspan (m : arrays) (s : span) (offset count : N) : outcome span :=
  if (Extent s =? dynamic_extent)%N then make_subspan_dynamic m s offset count
  else do tmp := span_convert dynamic_extent s in make_subspan_dynamic m tmp offset count.

(** first(count), last(count), subspan(offset, count)      gsl/span:619-635 *)
Definition first (s : span) (count : N) : outcome span :=
  do _ := Expects (count <=? size s)%N in span_count dynamic_extent (data s) count.
Definition last (m : arrays) (s : span) (count : N) : outcome span :=
  do _ := Expects (count <=? size s)%N in make_subspan m s (usub 64 (size s) count) dynamic_extent.
Definition subspan (m : arrays) (s : span) (offset count : N) : outcome span := make_subspan m s offset count.

(** first<Count>(), last<Count>()      gsl/span:582-601 *)
Definition firstT (s : span) (Count : N) : outcome span :=
  do _ := static_assert ((Extent s =? dynamic_extent)%N || (Count <=? Extent s)%N) in
  do _ := Expects (Count <=? size s)%N in
  span_count Count (data s) Count.
Definition lastT (m : arrays) (s : span) (Count : N) : outcome span :=
  do _ := static_assert ((Extent s =? dynamic_extent)%N || (Count <=? Extent s)%N) in
  do _ := Expects (Count <=? size s)%N in
  do p := padd m (data s) (Z.of_N (usub 64 (size s) Count)) in
  span_count Count p Count.
(** subspan<Offset, Count>()      gsl/span:417-423, 603-617 *)
Definition subspanT (m : arrays) (s : span) (Offset Count : N) : outcome span :=
  let dyn n := (n =? dynamic_extent)%N in
  do _ := static_assert (dyn (Extent s) || ((Offset <=? Extent s)%N && (dyn Count || (Count <=? Extent s - Offset)%N))) in
  do _ := Expects ((Offset <=? size s)%N && (dyn Count || (Count <=? usub 64 (size s) Offset)%N)) in
  let E := if negb (dyn Count) then Count else if negb (dyn (Extent s)) then (Extent s - Offset)%N else Extent s in
  do p := padd m (data s) (Z.of_N Offset) in
  span_count E p (if dyn Count then usub 64 (size s) Offset else Count).

(** size_bytes(), empty(), ssize()      gsl/span:640-642, gsl/span_ext:149-153 *)
Definition size_bytes (sizeof : N) (s : span) : N := umul 64 (size s) sizeof.
Definition empty (s : span) : bool := (size s =? 0)%N.
Definition ssize (s : span) : Z := to_distance (size s).
(** &operator[](idx), &front(), &back(), &at(s, i)      gsl/span:644-664, gsl/span_ext:139-146 *)
Definition subscript (m : arrays) (s : span) (idx : N) : outcome pointer :=
  do _ := Expects (idx <? size s)%N in padd m (data s) (Z.of_N idx).
Definition front (m : arrays) (s : span) : outcome pointer :=
  do _ := Expects (0 <? size s)%N in padd m (data s) 0.
Definition back (m : arrays) (s : span) : outcome pointer :=
  do _ := Expects (0 <? size s)%N in padd m (data s) (Z.of_N (usub 64 (size s) 1)).
Definition at_ (m : arrays) (s : span) (i : Z) : outcome pointer :=
  do _ := Expects (0 <=? i) in subscript m s (to_size i).

(** ** class span_iterator *)

(** gsl/span:345-347 *)
Record iterator := mkIterator { begin_ : pointer; end_ : pointer; current_ : pointer }.

(** span_iterator(begin, end, current)      gsl/span:141-145 *)
Definition iterator_new (b e c : pointer) : outcome iterator :=
  do l := ple b c in
  do r := (if l then ple c e else Done false) in
  do _ := Expects r in
  Done (mkIterator b e c).
(** begin(), end()      gsl/span:669-686 *)
Definition begin (m : arrays) (s : span) : outcome iterator :=
  do e := padd m (data s) (Z.of_N (size s)) in iterator_new (data s) e (data s).
Definition end__ (m : arrays) (s : span) : outcome iterator :=
  do e := padd m (data s) (Z.of_N (size s)) in iterator_new (data s) e e.

(** &operator*()      gsl/span:152-156 *)
Definition deref (i : iterator) : outcome pointer :=
  do _ := Expects (negb (peq (current_ i) (end_ i))) in Done (current_ i).
(** ++, --      gsl/span:163-185 *)
Definition increment (m : arrays) (i : iterator) : outcome iterator :=
  do _ := Expects (negb (peq (current_ i) (end_ i))) in
  do c := padd m (current_ i) 1 in Done (mkIterator (begin_ i) (end_ i) c).
Definition decrement (m : arrays) (i : iterator) : outcome iterator :=
  do _ := Expects (negb (peq (begin_ i) (current_ i))) in
  do c := padd m (current_ i) (-1) in Done (mkIterator (begin_ i) (end_ i) c).
(** a - b >= n, a - b >= -n *)
Definition at_least (a b : pointer) (n : Z) : outcome unit :=
  do d := pdiff a b in Expects (n <=? d).
(** +=, -=; the operators + and - apply them to a copy      gsl/span:194-234 *)
Definition advance (m : arrays) (i : iterator) (n : Z) : outcome iterator :=
  do _ := Expects ((n =? 0) || (negb (pnull (begin_ i)) && negb (pnull (current_ i)) && negb (pnull (end_ i)))) in
  do _ := (if 0 <? n then at_least (end_ i) (current_ i) n else Done tt) in
  do _ := (if n <? 0 then do k := neg n in at_least (current_ i) (begin_ i) k else Done tt) in
  do c := padd m (current_ i) n in Done (mkIterator (begin_ i) (end_ i) c).
Definition retreat (m : arrays) (i : iterator) (n : Z) : outcome iterator :=
  do _ := Expects ((n =? 0) || (negb (pnull (begin_ i)) && negb (pnull (current_ i)) && negb (pnull (end_ i)))) in
  do _ := (if 0 <? n then at_least (current_ i) (begin_ i) n else Done tt) in
  do _ := (if n <? 0 then do k := neg n in at_least (end_ i) (current_ i) k else Done tt) in
  do c := padd m (current_ i) (- n) in Done (mkIterator (begin_ i) (end_ i) c).
Definition same_span (i j : iterator) : bool := peq (begin_ i) (begin_ j) && peq (end_ i) (end_ j).
(** operator-      gsl/span:236-243 *)
Definition distance (i j : iterator) : outcome Z :=
  do _ := Expects (same_span i j) in pdiff (current_ i) (current_ j).
(** &operator[]      gsl/span:245-248 *)
Definition iterator_subscript (m : arrays) (i : iterator) (n : Z) : outcome pointer :=
  do j := advance m i n in deref j.
(** ==, <      gsl/span:250-274 *)
Definition iterator_eq (i j : iterator) : outcome bool :=
  do _ := Expects (same_span i j) in Done (peq (current_ i) (current_ j)).
Definition iterator_lt (i j : iterator) : outcome bool :=
  do _ := Expects (same_span i j) in plt (current_ i) (current_ j).
(** the others are defined with these      gsl/span:259-298 *)
Definition iterator_compare (r : rel) (i j : iterator) : outcome bool :=
  match r with
  | Eq => iterator_eq i j
  | Ne => do b := iterator_eq i j in Done (negb b)
  | Lt => iterator_lt i j
  | Le => do b := iterator_lt j i in Done (negb b)
  | Gt => iterator_lt j i
  | Ge => do b := iterator_lt i j in Done (negb b)
  end.
(** *r for std::reverse_iterator r, rbegin(), rend(): { auto tmp = current; return *--tmp; }      gsl/span:688-689 *)
Definition reverse_deref (m : arrays) (i : iterator) : outcome pointer :=
  do j := decrement m i in deref j.

(** ** Comparison of spans *)

(** std::equal on random access iterators: the distances are compared, then for (; first1 != last1; ++first1, ++first2)
    if (!( *first1 == *first2)) return false.  [fuel] bounds the model's recursion. *)
Fixpoint equal_loop (m : arrays) (fuel : nat) (f1 l1 f2 : iterator) : outcome bool :=
  match fuel with
  | O => Undefined
  | S fuel =>
      do e := iterator_eq f1 l1 in
      if e then Done true
      else
        do p := deref f1 in do x := load m p in
        do q := deref f2 in do y := load m q in
        if negb (x =? y)%N then Done false
        else do f1 := increment m f1 in do f2 := increment m f2 in equal_loop m fuel f1 l1 f2
  end.
(** operator==      gsl/span_ext:54-58 *)
Definition span_eq (m : arrays) (l r : span) : outcome bool :=
  do f1 := begin m l in do l1 := end__ m l in do f2 := begin m r in do l2 := end__ m r in
  do d1 := distance l1 f1 in do d2 := distance l2 f2 in
  if d1 =? d2 then equal_loop m (S (N.to_nat (size l))) f1 l1 f2 else Done false.
(** std::lexicographical_compare: for (; first1 != last1 && first2 != last2; ++first1, ++first2)
    { if ( *first1 < *first2) return true; if ( *first2 < *first1) return false; } return first1 == last1 && first2 != last2 *)
Fixpoint less_loop (m : arrays) (fuel : nat) (f1 l1 f2 l2 : iterator) : outcome bool :=
  match fuel with
  | O => Undefined
  | S fuel =>
      do e1 := iterator_eq f1 l1 in
      do e2 := iterator_eq f2 l2 in
      if negb e1 && negb e2 then
        do p := deref f1 in do x := load m p in
        do q := deref f2 in do y := load m q in
        if (x <? y)%N then Done true
        else if (y <? x)%N then Done false
        else do f1 := increment m f1 in do f2 := increment m f2 in less_loop m fuel f1 l1 f2 l2
      else Done (e1 && negb e2)
  end.
(** operator<      gsl/span_ext:66-70 *)
Definition span_lt (m : arrays) (l r : span) : outcome bool :=
  do f1 := begin m l in do l1 := end__ m l in do f2 := begin m r in do l2 := end__ m r in
  less_loop m (S (N.to_nat (size l))) f1 l1 f2 l2.
(** all operators but == take two spans of one type      gsl/span_ext:54-88 *)
Definition span_compare (r : rel) (m : arrays) (v w : span) : outcome bool :=
  do _ := static_assert (match r with Eq => true | _ => (Extent v =? Extent w)%N end) in
  match r with
  | Eq => span_eq m v w
  | Ne => do b := span_eq m v w in Done (negb b)
  | Lt => span_lt m v w
  | Le => do b := span_lt m w v in Done (negb b)
  | Gt => span_lt m w v
  | Ge => do b := span_lt m v w in Done (negb b)
  end.

(** ** Programs *)

(** the variables of a program *)
Record vars := mkVars { memory : arrays; spans : list span; iterators : list iterator }.

Definition span_var (s : vars) (v : nat) : outcome span :=
  match nth_error (spans s) v with Some v => Done v | None => IllFormed end.
Definition iterator_var (s : vars) (c : nat) : outcome iterator :=
  match nth_error (iterators s) c with Some c => Done c | None => IllFormed end.
Definition array_var (s : vars) (a : nat) : outcome unit :=
  match nth_error (memory s) a with Some _ => Done tt | None => IllFormed end.
Definition declare_span (s : vars) (r : outcome span) : outcome (vars * list Z) :=
  do v := r in Done (mkVars (memory s) (spans s ++ [v]) (iterators s), []).
Definition declare_iterator (s : vars) (r : outcome iterator) : outcome (vars * list Z) :=
  do c := r in Done (mkVars (memory s) (spans s) (iterators s ++ [c]), []).
Definition set_iterator (s : vars) (k : nat) (r : outcome iterator) : outcome (vars * list Z) :=
  do c := r in Done (mkVars (memory s) (spans s) (replace k c (iterators s)), []).
Definition print (s : vars) (z : outcome Z) : outcome (vars * list Z) := do z := z in Done (s, [z]).
Definition print_bool (s : vars) (b : outcome bool) : outcome (vars * list Z) := do b := b in Done (s, [truth b]).
Definition print_at (s : vars) (p : outcome pointer) : outcome (vars * list Z) :=
  do p := p in do x := load (memory s) p in Done (s, [Z.of_N x]).
Definition assign_at (s : vars) (p : outcome pointer) (x : N) : outcome (vars * list Z) :=
  do p := p in do m := store (memory s) p x in Done (mkVars m (spans s) (iterators s), []).

Definition extent_arg (n : option N) : N := match n with Some n => n | None => dynamic_extent end.

Definition exec (sizeof : N) (c : cmd) (s : vars) : outcome (vars * list Z) :=
  let m := memory s in
  match c with
  | Empty => declare_span s span_default
  | OfArray a => do _ := array_var s a in declare_span s (span_array m a)
  | OfContainer a => do _ := array_var s a in declare_span s (span_container m a)
  | OfCount a i n => do _ := array_var s a in
      declare_span s (do p := padd m (At a 0) (Z.of_N i) in span_count dynamic_extent p n)
  | OfRange a i j => do _ := array_var s a in
      declare_span s (do p := padd m (At a 0) (Z.of_N i) in do q := padd m (At a 0) (Z.of_N j) in span_range p q)
  | Convert e v => do v := span_var s v in declare_span s (span_convert (extent_arg e) v)
  | First v n => do v := span_var s v in declare_span s (first v n)
  | Last v n => do v := span_var s v in declare_span s (last m v n)
  | Sub v o n => do v := span_var s v in declare_span s (subspan m v o (extent_arg n))
  | FirstT v n => do v := span_var s v in declare_span s (firstT v n)
  | LastT v n => do v := span_var s v in declare_span s (lastT m v n)
  | SubT v o n => do v := span_var s v in declare_span s (subspanT m v o (extent_arg n))
  | Size v => do v := span_var s v in print s (Done (Z.of_N (size v)))
  | SSize v => do v := span_var s v in print s (Done (ssize v))
  | SizeBytes v => do v := span_var s v in print s (Done (Z.of_N (size_bytes sizeof v)))
  | IsEmpty v => do v := span_var s v in print_bool s (Done (empty v))
  | Get v i => do v := span_var s v in print_at s (subscript m v i)
  | Set_ v i x => do v := span_var s v in assign_at s (subscript m v i) x
  | Front v => do v := span_var s v in print_at s (front m v)
  | Back v => do v := span_var s v in print_at s (back m v)
  | At_ v i => do v := span_var s v in print_at s (at_ m v i)
  | Cmp r v w => do v := span_var s v in do w := span_var s w in print_bool s (span_compare r m v w)
  | Begin v => do v := span_var s v in declare_iterator s (begin m v)
  | End_ v => do v := span_var s v in declare_iterator s (end__ m v)
  | CopyC c => do c := iterator_var s c in declare_iterator s (Done c)
  | Inc k => do c := iterator_var s k in set_iterator s k (increment m c)
  | Dec k => do c := iterator_var s k in set_iterator s k (decrement m c)
  | Move k n => do c := iterator_var s k in set_iterator s k (advance m c n)
  | MoveBack k n => do c := iterator_var s k in set_iterator s k (retreat m c n)
  | Plus k n => do c := iterator_var s k in declare_iterator s (advance m c n)
  | Minus k n => do c := iterator_var s k in declare_iterator s (retreat m c n)
  | Deref k => do c := iterator_var s k in print_at s (deref c)
  | Assign k x => do c := iterator_var s k in assign_at s (deref c) x
  | Index k n => do c := iterator_var s k in print_at s (iterator_subscript m c n)
  | DerefBack k => do c := iterator_var s k in print_at s (reverse_deref m c)
  | Diff j k => do c := iterator_var s j in do d := iterator_var s k in print s (distance c d)
  | CmpC r j k => do c := iterator_var s j in do d := iterator_var s k in print_bool s (iterator_compare r c d)
  end.

(** the values a program prints, and how it ends *)
Fixpoint run (sizeof : N) (p : list cmd) (s : vars) : list Z * outcome arrays :=
  match p with
  | [] => ([], Done (memory s))
  | c :: p =>
      match exec sizeof c s with
      | Done (s, said) => let (rest, e) := run sizeof p s in (said ++ rest, e)
      | Terminates => ([], Terminates)
      | Undefined => ([], Undefined)
      | IllFormed => ([], IllFormed)
      end
  end.
Definition start_vars (m : arrays) : vars := mkVars m [] [].
