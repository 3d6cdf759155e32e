(** What a user of a hash class may do and what they are promised to see.

    Objects live in numbered slots.  The promise mentions only the messages that were
    added: an object is either absorbing a message or finished with it.  A step that the
    interface comment does not allow ("after this, only operator T(), reset(), toArray(),
    toString(), toVector() are available", e.g. sha1.h:212) has no promised result. *)
From Coq Require Import List NArith Arith Bool.
From Verif.Spec Require Import Words.
Import ListNotations.

Inductive op :=
| AddData (d : list N)
| Finalize
| Reset
| ToArray
| ToVector
| ToString
| ToUint (nbytes : nat)    (* conversion to an unsigned type of that size *)
| StdHash.                 (* std::hash<T>()(object), a size_t of 8 bytes *)

Inductive cmd :=
| On (i : nat) (o : op)          (* call a member function of object i *)
| CopyTo (dst src : nat).        (* dst = src, or copy construction of dst from src *)

Inductive obs :=
| OBytes (l : list N)
| OChars (l : list N)            (* ASCII codes *)
| ONum (n : N).

(** lower-case hexadecimal *)
Definition hex_alphabet : list N :=
  [48; 49; 50; 51; 52; 53; 54; 55; 56; 57; 97; 98; 99; 100; 101; 102]%N.   (* "0123456789abcdef" *)
Definition hex_char (x : N) : N := nth (N.to_nat x) hex_alphabet 0%N.
Definition hex_text (l : list N) : list N :=
  flat_map (fun b => [hex_char (b / 16); hex_char (b mod 16)]) l.

(** the leading bytes of the digest read as a big-endian number *)
Definition leading_number (nbytes : nat) (digest : list N) : N := be_value (firstn nbytes digest).

(** a promised object *)
Record aobj := mkA { a_msg : list N; a_done : bool }.
Definition afresh : aobj := mkA [] false.

Section Promise.
  (** the hash function, and the messages for which a result is promised *)
  Variable hash : list N -> list N.
  Variable dom : list N -> Prop.

  (** one step; [None] means no observation *)
  Inductive astep : op -> aobj -> aobj -> option obs -> Prop :=
  | as_add d m : span_ok d -> astep (AddData d) (mkA m false) (mkA (m ++ d) false) None
  | as_fin m : dom m -> astep Finalize (mkA m false) (mkA m true) None
  | as_reset a : astep Reset a afresh None
  | as_array m : astep ToArray (mkA m true) (mkA m true) (Some (OBytes (hash m)))
  | as_vector m : astep ToVector (mkA m true) (mkA m true) (Some (OBytes (hash m)))
  | as_string m : hash m <> [] ->
      astep ToString (mkA m true) (mkA m true) (Some (OChars (hex_text (hash m))))
  | as_uint m n : astep (ToUint n) (mkA m true) (mkA m true) (Some (ONum (leading_number n (hash m))))
  | as_std m : astep StdHash (mkA m true) (mkA m true) (Some (ONum (leading_number 8 (hash m)))).

  Definition astore := nat -> aobj.
  Definition aput (s : astore) (i : nat) (a : aobj) : astore := fun j => if j =? i then a else s j.

  (** a program and the list of observations promised for it *)
  Inductive arun : list cmd -> astore -> list obs -> astore -> Prop :=
  | ar_nil s : arun [] s [] s
  | ar_on i o rest s a' w os s' :
      astep o (s i) a' w -> arun rest (aput s i a') os s' ->
      arun (On i o :: rest) s (match w with Some x => x :: os | None => os end) s'
  | ar_copy i j rest s os s' :
      arun rest (aput s i (s j)) os s' -> arun (CopyTo i j :: rest) s os s'.
End Promise.
