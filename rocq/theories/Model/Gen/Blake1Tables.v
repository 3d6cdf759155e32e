(** Generated by tools/gen_tables.py. *)
From Coq Require Import List NArith.
Import ListNotations.
Local Open Scope N_scope.

(** blake1_256.h:253-257; same in blake1_224.h *)
Definition cTable32 : list N := [
  0x243f6a88; 0x85a308d3; 0x13198a2e; 0x3707344; 0xa4093822; 0x299f31d0; 0x82efa98; 0xec4e6c89;
  0x452821e6; 0x38d01377; 0xbe5466cf; 0x34e90c6c; 0xc0ac29b7; 0xc97c50dd; 0x3f84d5b5; 0xb5470917
].

(** blake1_512.h:316-320; same in blake1_384.h *)
Definition cTable64 : list N := [
  0x243f6a8885a308d3; 0x13198a2e03707344; 0xa4093822299f31d0; 0x82efa98ec4e6c89; 0x452821e638d01377; 0xbe5466cf34e90c6c; 0xc0ac29b7c97c50dd; 0x3f84d5b5b5470917;
  0x9216d5d98979fb1b; 0xd1310ba698dfb5ac; 0x2ffd72dbd01adfb7; 0xb8e1afed6a267e96; 0xba7c9045f12c7f99; 0x24a19947b3916cf7; 0x801f2e2858efc16; 0x636920d871574e69
].
