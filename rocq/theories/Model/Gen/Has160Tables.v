(** Generated by tools/gen_tables.py. *)
From Coq Require Import List NArith.
Import ListNotations.
Local Open Scope N_scope.

(** has_160.h:453-459 *)
Definition lTable : list N := [
  0x12; 0x0; 0x1; 0x2; 0x3; 0x13; 0x4; 0x5;
  0x6; 0x7; 0x10; 0x8; 0x9; 0xa; 0xb; 0x11;
  0xc; 0xd; 0xe; 0xf; 0x12; 0x3; 0x6; 0x9;
  0xc; 0x13; 0xf; 0x2; 0x5; 0x8; 0x10; 0xb;
  0xe; 0x1; 0x4; 0x11; 0x7; 0xa; 0xd; 0x0;
  0x12; 0xc; 0x5; 0xe; 0x7; 0x13; 0x0; 0x9;
  0x2; 0xb; 0x10; 0x4; 0xd; 0x6; 0xf; 0x11;
  0x8; 0x1; 0xa; 0x3; 0x12; 0x7; 0x2; 0xd;
  0x8; 0x13; 0x3; 0xe; 0x9; 0x4; 0x10; 0xf;
  0xa; 0x5; 0x0; 0x11; 0xb; 0x6; 0x1; 0xc
].
