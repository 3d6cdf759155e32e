(** Strings for names, customizations and tuple items without the limit that the library's encodings have in effect:
    up to 2^60 bytes, more than any object in memory. *)
From Coq Require Import List NArith.
From Verif.Spec Require Import Words Sp800185.
Local Open Scope N_scope.

Definition in_memory (s : list N) : Prop := bytes_ok s /\ bit_length s <= 2 ^ 63.
(** so long that the encoding of the bit length may fail *)
Definition too_long (s : list N) : Prop := 2 ^ 56 - 2 ^ 8 < bit_length s.
