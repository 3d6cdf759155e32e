(** Model of gsl/util, gsl/narrow, gsl/algorithm and of gsl::byte. *)
From Coq Require Import List NArith ZArith Arith Bool.
From Verif.Spec Require Import View Helpers.
From Verif.Model Require Import Span.
Import ListNotations.
Local Open Scope Z_scope.

(** ** narrow *)

(** static_cast to an integer type (reduction modulo 2^bits); narrow_cast      gsl/util:128-136 *)
Definition cast (t : int_type) (z : Z) : Z :=
  let r := z mod 2 ^ Z.of_N (bits t) in
  if signed t && (2 ^ (Z.of_N (bits t) - 1) <=? r) then r - 2 ^ Z.of_N (bits t) else r.
(** narrow<T>(u) for a value of the integer type U; None: narrowing_error is thrown      gsl/narrow:29-64 *)
Definition narrow (T U : int_type) (u : Z) : option Z :=
  let is_different_signedness := xorb (signed T) (signed U) in
  let t := cast T u in
  if negb (cast U t =? u) || (is_different_signedness && xorb (t <? 0) (u <? 0)) then None
  else Some t.

(** ** at, copy *)

(** at(arr, i), at(cont, i) for array number a      gsl/util:141-173 *)
Definition array_at (m : arrays) (a : nat) (i : Z) : outcome N :=
  let n := to_distance (N.of_nat (length (nth a m []))) in
  do _ := Expects ((0 <=? i) && (i <? n)) in
  load m (At a (Z.of_N (to_size i))).

(** std::copy_n(first, n, result), in the order of the elements *)
Fixpoint copy_n (m : arrays) (p : pointer) (n : nat) (q : pointer) : outcome arrays :=
  match n with
  | O => Done m
  | S n =>
      do x := load m p in do m := store m q x in
      do p := padd m p 1 in do q := padd m q 1 in
      copy_n m p n q
  end.
(** copy(src, dest), both of dynamic extent      gsl/algorithm:40-55 *)
Definition copy (m : arrays) (src dest : span) : outcome arrays :=
  do _ := Expects (size src <=? size dest)%N in
  copy_n m (data src) (N.to_nat (size src)) (data dest).

(** ** byte, as defined before C++17      gsl/byte:99-163 *)

(** byte(int): reduction modulo 256 *)
Definition to_byte (z : Z) : N := Z.to_N (z mod 256).
(** shifts of an int: undefined for a shift below 0 or above 31, and where b << s is not a value of unsigned (C++14) *)
Definition byte_shl (b : N) (s : Z) : outcome N :=
  if (0 <=? s) && (s <? 32) && (Z.of_N b * 2 ^ s <? 2 ^ 32) then Done (to_byte (Z.of_N b * 2 ^ s)) else Undefined.
Definition byte_shr (b : N) (s : Z) : outcome N :=
  if (0 <=? s) && (s <? 32) then Done (to_byte (Z.shiftr (Z.of_N b) s)) else Undefined.
Definition byte_or (l r : N) : N := to_byte (Z.lor (Z.of_N l) (Z.of_N r)).
Definition byte_and (l r : N) : N := to_byte (Z.land (Z.of_N l) (Z.of_N r)).
Definition byte_xor (l r : N) : N := to_byte (Z.lxor (Z.of_N l) (Z.of_N r)).
Definition byte_not (b : N) : N := to_byte (Z.lnot (Z.of_N b)).

(** ** final_action *)

(** gsl/util:98-127 *)
Record final_action := mkFinal { f : nat; invoke : bool }.

(** the guards made so far, destroyed ones as None, and the actions run so far *)
Definition guard_exec (c : guard_cmd) (s : list (option final_action) * list nat) : outcome (list (option final_action) * list nat) :=
  let (gs, ran) := s in
  match c with
  | Finally a => Done (gs ++ [Some (mkFinal a true)], ran)
  | MoveFrom g =>      (* f(std::move(other.f)), invoke(std::exchange(other.invoke, false)) *)
      match nth_error gs g with
      | Some (Some o) => Done (replace g (Some (mkFinal (f o) false)) gs ++ [Some (mkFinal (f o) (invoke o))], ran)
      | _ => Undefined
      end
  | Destroy g =>       (* if (invoke) f(); *)
      match nth_error gs g with
      | Some (Some o) => Done (replace g None gs, if invoke o then ran ++ [f o] else ran)
      | _ => Undefined
      end
  end.
Fixpoint guard_run (p : list guard_cmd) (s : list (option final_action) * list nat) : outcome (list nat) :=
  match p with
  | [] => Done (snd s)
  | c :: p => do s := guard_exec c s in guard_run p s
  end.
