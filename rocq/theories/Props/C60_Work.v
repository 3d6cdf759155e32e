(** C60: work proportional to the data. *)
From Coq Require Import List NArith Arith Bool.
From Verif.Base Require Import Leak.
From Verif.Base Require Res.
From Verif.Spec Require Import Client Work.
From Verif.Model Require Import Api Library LeakLibrary.
From Verif.Proof Require LeakErase LeakLinear.
Import ListNotations.

(** One number k for the whole library: a program that passes n bytes in c calls makes at most k * (1 + digest size) * (n + c)
    array accesses and branches, whatever the bytes, however they are cut, in whatever order the calls come, also when the
    program ends in an exception or a fault. *)
Theorem C60_program : exists k, forall (a : alg) dbg p,
  length (trace (observed a dbg p)) <= k * S (digest_size a) * program_size p.
Proof. exact Proof.LeakLinear.work_linear. Qed.
Print Assumptions C60_program.

(** No single call is slow on an object that a program has left behind: addData() takes at most k * (1 + number of bytes), every
    other member at most k * (1 + digest size). *)
Theorem C60_call : exists k, forall (a : alg) dbg p os st i o, exec (class a dbg) p (fun _ => c_new (class a dbg)) = Res.Ok (os, st) ->
  length (trace (run_op (class a dbg) (leaky a dbg) o (st i))) <=
  match o with AddData d => k * S (length d) | _ => k * S (digest_size a) end.
Proof.
  destruct Proof.LeakLinear.call_linear as [k K]. exists k. intros a dbg p os st i o E. apply (K a dbg p os st i o). rewrite Proof.LeakErase.observed_erases. exact E.
Qed.
Print Assumptions C60_call.

(** operator== over n elements *)
Theorem C60_equality : forall n l r, length (trace (LeakLibrary.eq_loop n 0 l r)) <= 4 * n + 1.
Proof. intros n l r. apply Proof.LeakLinear.eq_work. Qed.
Print Assumptions C60_equality.

(** ** Concrete cases *)
Definition abc : list cmd := [On 0 (AddData [97; 98; 99]%N); On 0 Finalize; CopyTo 1 0; On 1 ToArray].
(** four calls and three bytes *)
Example C60_size : program_size abc = 7. Proof. reflexivity. Qed.
(** FNV: the loop condition four times, three times true; toArray() the loop condition five times and four writes *)
Example C60_fnv : length (trace (observed FNV32_1a true abc)) = 4 + (5 + 4). Proof. reflexivity. Qed.
(** the object of C60_call exists *)
Example C60_reached : exists st, exec (class FNV32_1a true) [On 0 (AddData [97]%N)] (fun _ => c_new (class FNV32_1a true)) = Res.Ok ([], st).
Proof. eexists. reflexivity. Qed.
(** unequal at the second element: the loop condition, two reads and the comparison, twice *)
Example C60_differ : length (trace (LeakLibrary.eq_loop 4 0 [1; 2; 3; 4] [1; 5; 3; 4])%N) = 8. Proof. reflexivity. Qed.
