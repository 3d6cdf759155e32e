(** Generated by tools/gen_tables.py. *)
From Coq Require Import List NArith.
Import ListNotations.
Local Open Scope N_scope.

(** tmp[y][x]: rotl(m_state[a][b], (c % m_params.w)) as (a, b, c)      sha3.h:514-551 *)
Definition rhoPi : list (nat * nat * N) := [
  (0%nat, 0%nat, 0); (1%nat, 1%nat, 300); (2%nat, 2%nat, 171); (3%nat, 3%nat, 21); (4%nat, 4%nat, 78);
  (0%nat, 3%nat, 28); (1%nat, 4%nat, 276); (2%nat, 0%nat, 3); (3%nat, 1%nat, 45); (4%nat, 2%nat, 253);
  (0%nat, 1%nat, 1); (1%nat, 2%nat, 6); (2%nat, 3%nat, 153); (3%nat, 4%nat, 136); (4%nat, 0%nat, 210);
  (0%nat, 4%nat, 91); (1%nat, 0%nat, 36); (2%nat, 1%nat, 10); (3%nat, 2%nat, 15); (4%nat, 3%nat, 120);
  (0%nat, 2%nat, 190); (1%nat, 3%nat, 55); (2%nat, 4%nat, 231); (3%nat, 0%nat, 105); (4%nat, 1%nat, 66)
].

(** sha3.h:564-570 *)
Definition roundConstantTable : list N := [
  0x1; 0x8082; 0x800000000000808a; 0x8000000080008000; 0x808b; 0x80000001; 0x8000000080008081; 0x8000000000008009;
  0x8a; 0x88; 0x80008009; 0x8000000a; 0x8000808b; 0x800000000000008b; 0x8000000000008089; 0x8000000000008003;
  0x8000000000008002; 0x8000000000000080; 0x800a; 0x800000008000000a; 0x8000000080008081; 0x8000000000008080; 0x80000001; 0x8000000080008008
].
