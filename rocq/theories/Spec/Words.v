(** Words and bytes as the standards describe them: residues modulo 2^w with
    arithmetic definitions (no masks or machine shifts). *)
From Coq Require Import NArith List.
Import ListNotations.
Local Open Scope N_scope.

Definition word_ok (w x : N) : Prop := x < 2 ^ w.

Definition add (w x y : N) : N := (x + y) mod 2 ^ w.
(** x - y modulo 2^w *)
Definition sub (w x y : N) : N := (x + (2 ^ w - y mod 2 ^ w)) mod 2 ^ w.
Definition mul (w x y : N) : N := (x * y) mod 2 ^ w.
(** bitwise complement of a w-bit word *)
Definition compl (w x : N) : N := 2 ^ w - 1 - x.
(** circular shift left by n < w positions *)
Definition ROTL (w n x : N) : N := (x * 2 ^ n) mod 2 ^ w + x / 2 ^ (w - n).
(** circular shift right by n < w positions *)
Definition ROTR (w n x : N) : N := x / 2 ^ n + (x mod 2 ^ n) * 2 ^ (w - n).
(** logical shifts *)
Definition SHR (n x : N) : N := x / 2 ^ n.
Definition SHL (w n x : N) : N := (x * 2 ^ n) mod 2 ^ w.

(** sums of several words *)
Definition sum (w : N) (l : list N) : N := fold_right N.add 0 l mod 2 ^ w.

(** big-endian / little-endian value of a byte string *)
Definition be_value (l : list N) : N := fold_left (fun a b => a * 256 + b) l 0.
Fixpoint le_value (l : list N) : N :=
  match l with
  | [] => 0
  | b :: t => b + 256 * le_value t
  end.

(** the n-byte little-endian / big-endian representation of x mod 256^n *)
Fixpoint le_bytes (n : nat) (x : N) : list N :=
  match n with
  | O => []
  | S k => x mod 256 :: le_bytes k (x / 256)
  end.
Definition be_bytes (n : nat) (x : N) : list N := rev (le_bytes n x).

(** consecutive pieces of n elements; an incomplete last piece is kept as it is *)
Fixpoint pieces_fuel {A} (fuel n : nat) (l : list A) : list (list A) :=
  match fuel with
  | O => []
  | S f => match l with
           | [] => []
           | _ => firstn n l :: pieces_fuel f n (skipn n l)
           end
  end.
Definition pieces {A} (n : nat) (l : list A) : list (list A) := pieces_fuel (length l) n l.

Definition byte_ok (b : N) : Prop := b < 256.
Definition bytes_ok (l : list N) : Prop := Forall byte_ok l.

(** what a span of bytes can hold: its size is a 64-bit number *)
Definition span_ok (l : list N) : Prop := bytes_ok l /\ N.of_nat (length l) < 2 ^ 64.

(** words of a block: big-endian / little-endian, nb bytes each *)
Definition be_words (nb : nat) (l : list N) : list N := map be_value (pieces nb l).
Definition le_words (nb : nat) (l : list N) : list N := map le_value (pieces nb l).

(** append n further elements, each computed from the list built so far *)
Fixpoint extend {A} (f : list A -> A) (n : nat) (l : list A) : list A :=
  match n with
  | O => l
  | S k => extend f k (l ++ [f l])
  end.

(** the element i positions before the end of the list under construction: x_(t-i) *)
Definition back (l : list N) (i : nat) : N := nth (length l - i) l 0.
