(** Generated by tools/gen_tables.py. *)
From Coq Require Import List NArith.
Import ListNotations.
Local Open Scope N_scope.

(** unfinished/has_v_320.cpp:207-210 *)
Definition sTable : list N := [
  0x5; 0xb; 0x7; 0xd; 0xf; 0x6; 0xd; 0x9;
  0x5; 0xb; 0x7; 0xc; 0x8; 0xf; 0xd; 0x8;
  0xf; 0x6; 0x7; 0xe
].

(** unfinished/has_v_320.cpp:211-218 *)
Definition mTable : list N := [
  0x12; 0x0; 0x1; 0x2; 0x3; 0x13; 0x4; 0x5;
  0x6; 0x7; 0x10; 0x8; 0x9; 0xa; 0xb; 0x11;
  0xc; 0xd; 0xe; 0xf; 0x12; 0x3; 0x6; 0x9;
  0xc; 0x13; 0xf; 0x2; 0x5; 0x8; 0x10; 0xb;
  0xe; 0x1; 0x4; 0x11; 0x7; 0xa; 0xd; 0x0;
  0x12; 0xc; 0x5; 0xe; 0x7; 0x13; 0x0; 0x9;
  0x2; 0xb; 0x10; 0x4; 0xd; 0x6; 0xf; 0x11;
  0x8; 0x1; 0xa; 0x3; 0x12; 0x7; 0x2; 0xd;
  0x8; 0x13; 0x3; 0xe; 0x9; 0x4; 0x10; 0xf;
  0xa; 0x5; 0x0; 0x11; 0xb; 0x6; 0x1; 0xc;
  0x12; 0xf; 0x9; 0x5; 0x3; 0x13; 0xc; 0x8;
  0x6; 0x2; 0x10; 0xd; 0xb; 0x7; 0x1; 0x11;
  0xe; 0xa; 0x4; 0x0
].

(** unfinished/has_v_320.cpp:252-259 *)
Definition lut_0 : list N := [
  0x0; 0x1; 0x2; 0x3; 0x4; 0x5; 0x6; 0x7;
  0x8; 0x9; 0xa; 0xb; 0xc; 0xd; 0xe; 0xf
].
Definition lut_1 : list N := [
  0x3; 0x6; 0x9; 0xc; 0xf; 0x2; 0x5; 0x8;
  0xb; 0xe; 0x1; 0x4; 0x7; 0xa; 0xd; 0x0
].
Definition lut_2 : list N := [
  0xc; 0x5; 0xe; 0x7; 0x0; 0x9; 0x2; 0xb;
  0x4; 0xd; 0x6; 0xf; 0x8; 0x1; 0xa; 0x3
].
Definition lut_3 : list N := [
  0x7; 0x2; 0xd; 0x8; 0x3; 0xe; 0x9; 0x4;
  0xf; 0xa; 0x5; 0x0; 0xb; 0x6; 0x1; 0xc
].
Definition lut_4 : list N := [
  0xf; 0x9; 0x5; 0x3; 0xc; 0x8; 0x6; 0x2;
  0xd; 0xb; 0x7; 0x1; 0xe; 0xa; 0x4; 0x0
].
Definition lut : list (list N) := [lut_0; lut_1; lut_2; lut_3; lut_4].
