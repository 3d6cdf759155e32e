(** Generated by tools/gen_leak.py from Model/Md5.v: the same functions with the array indices and branches they show. *)
From Verif.Base Require Import Res CWord.
From Coq Require Import List NArith Arith Bool.
From Verif.Model Require Import Buffer Stream Api Call.
From Verif.Model.Gen Require Import Md5Calls.
From Verif.Model Require Import Md5.
From Verif.Base Require Import Leak.
From Verif.Model.Leak Require Import LkBuffer LkStream LkCall.
Import ListNotations.
Local Open Scope N_scope.
(** the function arguments as numbered in the generated list: f, g, h, ii *)
Definition func (n : N) : res (N -> N -> N -> N) :=
  match n with 0 => Ok f | 1 => Ok g | 2 => Ok h | 3 => Ok ii | _ => Ub OutOfFuel end.
Section Rounds.
  Variable m : list N.
  (* memory at the block *)
(** a = b + rotl((a + func(b, c, d) + x[k] + t), s)      md5.h:480-483 *)
  Definition round (F : N -> N -> N -> N) (k : nat) (s t : N) (p : list N) : res (list (nat * N)) :=
    match p with
    | [a; b; c; d] =>
        let! xk := load_le 4 m k in
        Ok [(0%nat, uadd 32 b (rotl 32 (uadd 32 (uadd 32 (uadd 32 a (F b c d)) xk) t) s))]
    | _ => Ub OutOfFuel
    end.
  Definition exec_call (c : call fn) (r : list N) : res (list N) :=
    match c_args c with
    | [fn; k; s; t] =>
        let! F := func fn in
        call_regs (round F (N.to_nat k) s t) (c_regs c) r
    | _ => Ub OutOfFuel
    end.
End Rounds.
(** the loop body of addDataImpl      md5.h:454-557 *)
Definition compress (m : list N) (st : list N) : res (list N) :=
  let! a := aget st 0 in
  let! b := aget st 1 in
  let! c := aget st 2 in
  let! d := aget st 3 in
  let! r := foldM (exec_call m) calls [a; b; c; d] in
  (* m_state[i] += a..d *)
  for_ 0 4 (fun i st =>
    let! s := aget st i in
    let! v := aget r i in
    aset st i (uadd 32 s v)) st.
(** toArray()      md5.h:359-373 *)
Definition toArray (st : list N) : res (list N) :=
  store_array 16 (flat_map (word_bytes_le 4) st).
