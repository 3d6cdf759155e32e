(** Generated by tools/gen_leak.py from Model/Ripemd.v: the same functions with the array indices and branches they show. *)
From Verif.Base Require Import Res CWord.
From Coq Require Import List NArith Arith Bool.
From Verif.Model Require Import Buffer Stream Api Call.
From Verif.Model.Gen Require Ripemd128Calls Ripemd160Calls Ripemd256Calls Ripemd320Calls.
From Verif.Model Require Import Ripemd.
From Verif.Base Require Import Leak.
From Verif.Model.Leak Require Import LkBuffer LkStream LkCall.
Import ListNotations.
Local Open Scope N_scope.
(** function arguments as numbered in the generated lists *)
Definition func (n : N) : res (N -> N -> N -> N) :=
  match n with 0 => Ok f1 | 1 => Ok f2 | 2 => Ok f3 | 3 => Ok f4 | 4 => Ok f5 | _ => Ub OutOfFuel end.
Section Rounds.
  Variable m : list N.
  (* memory at the block *)
(** lineLeft with four registers: a = rotl((a + f(b, c, d) + x[r] + k), s)
      ripemd_128.h:473-476, ripemd_256.h:478-481; lineRight is a reference to it (482, 487) *)
  Definition line4 (f : N -> N -> N -> N) (k : N) (r : nat) (s : N) (p : list N) : res (list (nat * N)) :=
    match p with
    | [a; b; c; d] =>
        let! xr := load_le 4 m r in
        Ok [(0%nat, rotl 32 (uadd 32 (uadd 32 (uadd 32 a (f b c d)) xr) k) s)]
    | _ => Ub OutOfFuel
    end.
  (** with five: a = rotl((a + f(b, c, d) + x[r] + k), s) + e; c = rotl(c, 10)
      ripemd_160.h:479-483, ripemd_320.h:485-489; lineRight: 490, 496 *)
  Definition line5 (f : N -> N -> N -> N) (k : N) (r : nat) (s : N) (p : list N) : res (list (nat * N)) :=
    match p with
    | [a; b; c; d; e] =>
        let! xr := load_le 4 m r in
        Ok [(0%nat, uadd 32 (rotl 32 (uadd 32 (uadd 32 (uadd 32 a (f b c d)) xr) k) s) e);
            (2%nat, rotl 32 c 10)]
    | _ => Ub OutOfFuel
    end.
  (** swap(left, right)      ripemd_256.h:489-495, ripemd_320.h:498-504 *)
  Definition swap (p : list N) : res (list (nat * N)) :=
    match p with
    | [l; r] => Ok [(0%nat, r); (1%nat, l)]
    | _ => Ub OutOfFuel
    end.
  Definition line (ln : (N -> N -> N -> N) -> N -> nat -> N -> list N -> res (list (nat * N)))
      (args : list N) (regs : list nat) (r : list N) : res (list N) :=
    match args with
    | [fn; k; w; s] => let! f := func fn in call_regs (ln f k (N.to_nat w) s) regs r
    | _ => Ub OutOfFuel
    end.
  Definition exec128 (c : call Ripemd128Calls.fn) (r : list N) : res (list N) :=
    match c_fn c with
    | Ripemd128Calls.lineLeft => line line4 (c_args c) (c_regs c) r
    | Ripemd128Calls.lineRight => line line4 (c_args c) (c_regs c) r
    end.
  Definition exec160 (c : call Ripemd160Calls.fn) (r : list N) : res (list N) :=
    match c_fn c with
    | Ripemd160Calls.lineLeft => line line5 (c_args c) (c_regs c) r
    | Ripemd160Calls.lineRight => line line5 (c_args c) (c_regs c) r
    end.
  Definition exec256 (c : call Ripemd256Calls.fn) (r : list N) : res (list N) :=
    match c_fn c with
    | Ripemd256Calls.lineLeft => line line4 (c_args c) (c_regs c) r
    | Ripemd256Calls.lineRight => line line4 (c_args c) (c_regs c) r
    | Ripemd256Calls.swap => call_regs swap (c_regs c) r
    end.
  Definition exec320 (c : call Ripemd320Calls.fn) (r : list N) : res (list N) :=
    match c_fn c with
    | Ripemd320Calls.lineLeft => line line5 (c_args c) (c_regs c) r
    | Ripemd320Calls.lineRight => line line5 (c_args c) (c_regs c) r
    | Ripemd320Calls.swap => call_regs swap (c_regs c) r
    end.
End Rounds.
(** m_h[i] = m_h[j] + r[k] + r[l] *)
Definition mix (st r : list N) (j k l : nat) : res N :=
  let! h := aget st j in
  let! x := aget r k in
  let! y := aget r l in
  Ok (uadd 32 (uadd 32 h x) y).
(** the loop body of addDataImpl      ripemd_128.h:448-618.  The register file is
    a, b, c, d, aa, bb, cc, dd. *)
Definition compress128 (m : list N) (st : list N) : res (list N) :=
  let! l := mapM (aget st) [0; 1; 2; 3]%nat in
  let! r := foldM (exec128 m) Ripemd128Calls.calls (l ++ l) in
  let! t := mix st r 1 2 7 in
  let! v := mix st r 2 3 4 in let! st := aset st 1 v in
  let! v := mix st r 3 0 5 in let! st := aset st 2 v in
  let! v := mix st r 0 1 6 in let! st := aset st 3 v in
  aset st 0 t.
(** ripemd_160.h:449-659; registers a .. e, aa .. ee *)
Definition compress160 (m : list N) (st : list N) : res (list N) :=
  let! l := mapM (aget st) [0; 1; 2; 3; 4]%nat in
  let! r := foldM (exec160 m) Ripemd160Calls.calls (l ++ l) in
  let! t := mix st r 1 2 8 in
  let! v := mix st r 2 3 9 in let! st := aset st 1 v in
  let! v := mix st r 3 4 5 in let! st := aset st 2 v in
  let! v := mix st r 4 0 6 in let! st := aset st 3 v in
  let! v := mix st r 0 1 7 in let! st := aset st 4 v in
  aset st 0 t.
(** m_h[i] += register i, for i < n *)
Definition add_all (n : nat) (r st : list N) : res (list N) :=
  for_ 0 n (fun i st =>
    let! s := aget st i in
    let! v := aget r i in
    aset st i (uadd 32 s v)) st.
(** ripemd_256.h:453-641 *)
Definition compress256 (m : list N) (st : list N) : res (list N) :=
  let! l := mapM (aget st) [0; 1; 2; 3; 4; 5; 6; 7]%nat in
  let! r := foldM (exec256 m) Ripemd256Calls.calls l in
  add_all 8 r st.
(** ripemd_320.h:455-686 *)
Definition compress320 (m : list N) (st : list N) : res (list N) :=
  let! l := mapM (aget st) [0; 1; 2; 3; 4; 5; 6; 7; 8; 9]%nat in
  let! r := foldM (exec320 m) Ripemd320Calls.calls l in
  add_all 10 r st.
(** toArray()      ripemd_128.h:353-367 (16), ripemd_160.h:354-368 (20), ripemd_256.h:358-372 (32),
    ripemd_320.h:360-374 (40) *)
Definition toArray (size : nat) (st : list N) : res (list N) :=
  store_array size (flat_map (word_bytes_le 4) st).
