(** C47: every block is compressed once, in order, and as soon as it is complete. *)
From Coq Require Import String List NArith Arith Lia.
From Verif.Base Require Import Res.
From Verif.Spec Require Import Words Merkle.
From Verif.Model Require Import Buffer Stream Api Library Chaining Traced.
From Verif.Tests Require Import Kit.
From Verif.Proof Require Traced.
Import ListNotations.
Local Open Scope N_scope.

(** [traced_class] is the class with a record of the blocks that its compression function is called on, and computes the same
    chaining values.  Before finalize(): the recorded blocks and the bytes waiting in the buffer are the message, less
    than one block waits.  finalize() compresses one or two blocks more, and then the record is the padded message. *)
Theorem C47_once : forall (a : alg) dbg B r mk enc ds, padding a = Some (B, r, mk, enc) ->
  Forall span_ok ds -> 8 * N.of_nat (length (concat ds)) < 2 ^ counts a ->
  exists x0 x t0 t,
    foldM (c_add (class a dbg)) ds (c_new (class a dbg)) = Ok x0 /\ c_finalize (class a dbg) x0 = Ok x /\
    foldM (c_add (traced_class a dbg)) ds (c_new (traced_class a dbg)) = Ok t0 /\ c_finalize (traced_class a dbg) t0 = Ok t /\
    fst (trace a dbg t0) = chaining a dbg x0 /\ fst (trace a dbg t) = chaining a dbg x /\
    concat (snd (trace a dbg t0)) ++ waiting a dbg x0 = concat ds /\
    (length (waiting a dbg x0) < B)%nat /\ Forall (fun b => length b = B) (snd (trace a dbg t0)) /\
    snd (trace a dbg t) = pieces B (pad B r mk enc (concat ds)) /\
    (exists new, snd (trace a dbg t) = snd (trace a dbg t0) ++ new /\
      (length new = if length (concat ds) mod B + 1 + r <=? B then 1 else 2)%nat).
Proof. exact Proof.Traced.in_order. Qed.
Print Assumptions C47_once.

(** 50 and 70 bytes: one block compressed, 56 bytes waiting; no room for the marker and the length, two more blocks *)
Example C47_case : exists t0 t,
  foldM (c_add (traced_class SHA1 true)) [counting 50; repeat 7 70] (c_new (traced_class SHA1 true)) = Ok t0 /\
  c_finalize (traced_class SHA1 true) t0 = Ok t /\
  snd (trace SHA1 true t0) = [counting 50 ++ repeat 7 14] /\ length (buf_span (fst t0)) = 56%nat /\
  snd (trace SHA1 true t) =
    [counting 50 ++ repeat 7 14; repeat 7 56 ++ [128] ++ repeat 0 7; repeat 0 56 ++ [0; 0; 0; 0; 0; 0; 3; 192]] /\
  padding SHA1 = Some (64%nat, 8%nat, 128, be_bytes 8).
Proof. eexists _, _. do 5 (split; [vm_compute; reflexivity|]). reflexivity. Qed.
