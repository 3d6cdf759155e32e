(** C63: HAS-V: array indices and branches depend on sizes only, and the work is proportional to the data. *)
From Coq Require Import List NArith Arith Bool.
From Verif.Base Require Import Leak.
From Verif.Base Require Res.
From Verif.Spec Require Import Client Shape Work.
From Verif.Model Require Import Api LeakLibrary LeakHasV.
From Verif.Model Require HasV.
From Verif.Proof Require LeakEqual LeakHasV.
From Verif.Props Require Import C43_HasV C61_ObjectTraces.
Import ListNotations.

(** The runs with indices and branches are the runs of Model/HasV.v. *)
Theorem C63_erased : forall (dbg : bool) p, outcome (seen dbg p) = exec (HasV.cls dbg) p (fun _ => c_new (HasV.cls dbg)).
Proof. exact Proof.LeakHasV.seen_erases. Qed.
Print Assumptions C63_erased.

(** Two programs that differ only in the contents of the data show the same indices and branches and end alike, although the code
    looks up a table of the message words by entries of other tables. *)
Theorem C63_equal : forall (dbg : bool) p q, Forall has_member p -> same_shape p q ->
  trace (seen dbg p) = trace (seen dbg q) /\ ending (outcome (seen dbg p)) = ending (outcome (seen dbg q)).
Proof.
  intros dbg p q H S. apply (ct_ending LeakEqual.any). apply Proof.LeakHasV.seen_equal; [exact S|]. intros i Hi.
  rewrite Forall_forall in H. exact (H _ Hi).
Qed.
Print Assumptions C63_equal.

(** One number k: a program that passes n bytes in c calls makes at most k * (n + c) array accesses and branches. *)
Theorem C63_program : exists k, forall (dbg : bool) p, Forall has_member p -> length (trace (seen dbg p)) <= k * program_size p.
Proof. destruct Proof.LeakHasV.hv_work as [k K]. exists k. intros dbg p _. apply K. Qed.
Print Assumptions C63_program.

(** No single call is slow on an object that a program has left behind. *)
Theorem C63_call : exists k, forall (dbg : bool) p os st i o, Forall has_member p -> has_member (On i o) ->
  exec (HasV.cls dbg) p (fun _ => c_new (HasV.cls dbg)) = Res.Ok (os, st) ->
  length (trace (run_op (HasV.cls dbg) (has_v dbg) o (st i))) <= match o with AddData d => k * S (length d) | _ => k end.
Proof. destruct Proof.LeakHasV.hv_call_work as [k K]. exists k. intros dbg p os st i o _ _. apply K. Qed.
Print Assumptions C63_call.

(** ** Concrete cases *)
Definition two (d : list N) : list cmd := [On 0 (AddData d); On 0 (AddData [1; 2]%N); On 0 Finalize; On 0 ToArray].
Example C63_shape : Forall has_member (two [5; 6; 7]%N) /\ same_shape (two [5; 6; 7]%N) (two [0; 255; 9]%N) /\ two [5; 6; 7]%N <> two [0; 255; 9]%N /\ program_size (two [5; 6; 7]%N) = 9.
Proof. split; [repeat constructor|]. split; [|split; [discriminate|reflexivity]]. constructor; [apply sc_on, so_data; reflexivity|]. repeat (constructor; [apply sc_on, so_other|]). constructor. Qed.
(** two bytes into a new object: the buffer is empty, the data is less than a block, two elements are written *)
Example C63_first : trace (seen false [On 0 (AddData [5; 6]%N)]) = [Branch false; Branch true; Branch true; Write 0; Branch true; Write 1; Branch false]. Proof. reflexivity. Qed.
(** one more: the buffer is not empty, one element is written behind its end, the buffer is not full *)
Example C63_second : trace (seen false [On 0 (AddData [5; 6]%N); On 0 (AddData [7]%N)]) =
  trace (seen false [On 0 (AddData [5; 6]%N)]) ++ [Branch true; Branch true; Write 2; Branch false; Branch true]. Proof. reflexivity. Qed.
(** the number of bytes shows *)
Example C63_length : trace (seen false [On 0 (AddData [5]%N)]) <> trace (seen false [On 0 (AddData [5; 6]%N)]). Proof. discriminate. Qed.
