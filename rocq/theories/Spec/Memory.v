(** What it means that bytes, and arrays of objects, lie in memory. *)
From Coq Require Import List NArith Arith.
Import ListNotations.
Local Open Scope N_scope.

(** the readable bytes of a flat address space *)
Definition memory := N -> option N.

(** the bytes of an object representation at address [p] *)
Definition object_at (mem : memory) (p : N) (bytes : list N) : Prop :=
  forall i b, nth_error bytes i = Some b -> mem (p + N.of_nat i) = Some b.

(** an array of objects of [size] bytes each, given by their representations *)
Definition array_at (mem : memory) (size : nat) (p : N) (elements : list (list N)) : Prop :=
  forall i e, nth_error elements i = Some e -> length e = size /\ object_at mem (p + N.of_nat (i * size)) e.

(** nothing else is readable *)
Definition only (mem : memory) (p : N) (count : N) : Prop := forall x, ~ (p <= x < p + count) -> mem x = None.

(** the calls of addData: a span of bytes, a pointer and a length, an array of bytes, an array or a span of objects of [size] bytes *)
Inductive call :=
| ByteSpan (p n : N)
| Pointer (p n : N)
| Bytes (p n : N)
| Array (size p n : N)
| TypedSpan (size p n : N).

(** the bytes a call is about; objects occupy less than the whole address space *)
Inductive designates (mem : memory) : call -> list N -> Prop :=
| at_span p d : object_at mem p d -> N.of_nat (length d) < 2 ^ 64 -> designates mem (ByteSpan p (N.of_nat (length d))) d
| at_pointer p d : object_at mem p d -> N.of_nat (length d) < 2 ^ 64 -> designates mem (Pointer p (N.of_nat (length d))) d
| at_bytes p d : object_at mem p d -> N.of_nat (length d) < 2 ^ 64 -> designates mem (Bytes p (N.of_nat (length d))) d
| at_array size p es : array_at mem size p es -> N.of_nat (length es * size) < 2 ^ 64 ->
    designates mem (Array (N.of_nat size) p (N.of_nat (length es))) (concat es)
| at_typed size p es : array_at mem size p es -> N.of_nat (length es * size) < 2 ^ 64 ->
    designates mem (TypedSpan (N.of_nat size) p (N.of_nat (length es))) (concat es).

(** a string literal: its characters and a terminating zero *)
Definition literal_at (mem : memory) (p : N) (s : list N) : Prop := object_at mem p (s ++ [0]).
