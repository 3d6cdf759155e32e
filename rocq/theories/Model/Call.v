(** Unrolled round code is modelled as a list of calls: which macro or lambda, the
    registers passed (by reference, as indices into the register file), other arguments.
    The lists are extracted from the headers by tools/gen_rounds.py. *)
From Coq Require Import List NArith.
Record call (F : Type) := Call { c_fn : F; c_regs : list nat; c_args : list N }.
Arguments Call {F}. Arguments c_fn {F}. Arguments c_regs {F}. Arguments c_args {F}.
From Verif.Base Require Import Res.
Import ListNotations.

(** A lambda with reference parameters: [regs] are the argument registers, [f] maps the
    parameter values to the assignments it makes (parameter number, new value). *)
Definition call_regs (f : list N -> res (list (nat * N))) (regs : list nat) (r : list N) : res (list N) :=
  let! vs := mapM (aget r) regs in
  let! ws := f vs in
  foldM (fun (w : nat * N) r => let! j := aget regs (fst w) in aset r j (snd w)) ws r.
