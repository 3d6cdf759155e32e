(** Generated by tools/gen_leak.py from Model/Call.v: the same functions with the array indices and branches they show. *)
From Verif.Base Require Import Res CWord.
From Coq Require Import List NArith.
From Verif.Model Require Import Call.
From Verif.Base Require Import Leak.
Import ListNotations.
(** A lambda with reference parameters: [regs] are the argument registers, [f] maps the
    parameter values to the assignments it makes (parameter number, new value). *)
Definition call_regs (f : list N -> res (list (nat * N))) (regs : list nat) (r : list N) : res (list N) :=
  let! vs := mapM (aget r) regs in
  let! ws := f vs in
  foldM (fun (w : nat * N) r => let! j := aget regs (fst w) in aset r j (snd w)) ws r.
