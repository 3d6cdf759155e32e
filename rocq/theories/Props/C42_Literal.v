(** C42: a string literal passed to addData() alone is hashed with its terminating zero, not as README.md:70-73 has it
    ("addData("hello", 5); ... or just addData("hello")"). *)
From Coq Require Import String List NArith Arith Bool.
From Verif.Base Require Import Res.
From Verif.Spec Require Import Words Memory.
From Verif.Model Require Import Api Library Overloads.
From Verif.Tests Require Import Kit.
From Verif.Proof Require Literal.
Import ListNotations.
Local Open Scope N_scope.

(** The literal [s] is an array of |s| + 1 characters; the overload for arrays takes all of them (sha1.h:431-435). *)
Theorem C42_literal : forall (a : alg) dbg mem p s o, literal_at mem p s -> N.of_nat (length s) < 2 ^ 64 - 1 ->
  add_call _ (add_span a dbg) mem (Array 1 p (N.of_nat (length s) + 1)) o = c_add (class a dbg) (s ++ [0]) o /\
  add_call _ (add_span a dbg) mem (Pointer p (N.of_nat (length s))) o = c_add (class a dbg) s o.
Proof. exact Proof.Literal.literal_calls. Qed.
Print Assumptions C42_literal.

(** the two calls of the README do not give the same digest *)
Theorem C42_readme_refuted : exists mem p,
  literal_at mem p (text "hello") /\
  bind (add_call _ (add_span SHA1 true) mem (Pointer p 5) (c_new (class SHA1 true)))
    (fun x => bind (c_finalize (class SHA1 true) x) (c_array (class SHA1 true))) = Ok (unhex "aaf4c61ddcc5e8a2dabede0f3b482cd9aea9434d") /\
  bind (add_call _ (add_span SHA1 true) mem (Array 1 p 6) (c_new (class SHA1 true)))
    (fun x => bind (c_finalize (class SHA1 true) x) (c_array (class SHA1 true))) = Ok (unhex "e26111d298d26f3d0ed99fd81cc13eecf128ad24").
Proof.
  exists (Proof.Literal.placed 4096 (text "hello" ++ [0])), 4096. split; [exact (Proof.Literal.placed_at 4096 (text "hello" ++ [0]))|].
  split; vm_compute; reflexivity.
Qed.
Print Assumptions C42_readme_refuted.

Example C42_case : literal_at (Proof.Literal.placed 4096 (text "hello" ++ [0])) 4096 (text "hello").
Proof. exact (Proof.Literal.placed_at 4096 (text "hello" ++ [0])). Qed.
