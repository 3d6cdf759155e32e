(** C39: every overload of addData (nextData for TupleHash) has the effect of adding the bytes of the object representation. *)
From Coq Require Import String List NArith ZArith Arith Bool Lia.
From Verif.Base Require Import Res.
From Verif.Spec Require Import Words Memory.
From Verif.Model Require Import Api ObjApi Library Overloads.
From Verif.Tests Require Import Kit.
From Verif.Model Require CShake TupleHash.
From Verif.Proof Require Overloads.
Import ListNotations.
Local Open Scope N_scope.

(** From any state of the object, for any calls that designate the byte strings [ds]; in a memory in which nothing else
    is readable too, so the calls read nothing else.  The right-hand side is what all other properties speak about. *)
Theorem C39_overloads : forall (a : alg) dbg mem calls ds o, Forall2 (designates mem) calls ds ->
  foldM (add_call _ (add_span a dbg) mem) calls o = foldM (c_add (class a dbg)) ds o.
Proof. exact Proof.Overloads.class_calls. Qed.
Print Assumptions C39_overloads.

Theorem C39_cshake128 : forall log2 dbg mem calls ds o, Forall2 (designates mem) calls ds ->
  foldM (add_call _ (cshake_span 168 0x1F 0x04 dbg) mem) calls o = foldM (oc_feed (Model.CShake.cls128 log2 dbg)) ds o.
Proof. exact (fun log2 dbg mem cs ds o => Proof.Overloads.cshake_calls 168 0x1F 0x04 dbg mem cs ds o ltac:(lia)). Qed.
Print Assumptions C39_cshake128.
Theorem C39_cshake256 : forall log2 dbg mem calls ds o, Forall2 (designates mem) calls ds ->
  foldM (add_call _ (cshake_span 136 0x1F 0x04 dbg) mem) calls o = foldM (oc_feed (Model.CShake.cls256 log2 dbg)) ds o.
Proof. exact (fun log2 dbg mem cs ds o => Proof.Overloads.cshake_calls 136 0x1F 0x04 dbg mem cs ds o ltac:(lia)). Qed.
Print Assumptions C39_cshake256.

(** one element of the tuple per call *)
Theorem C39_tuple128 : forall log2 dbg mem calls ds o, Forall2 (designates mem) calls ds ->
  foldM (add_call _ (tuple_span log2 168 0x1F 0x04 dbg) mem) calls o = foldM (oc_feed (Model.TupleHash.cls128 log2 dbg)) ds o.
Proof. exact (fun log2 dbg mem cs ds o => Proof.Overloads.tuple_calls log2 168 0x1F 0x04 dbg mem cs ds o ltac:(lia)). Qed.
Print Assumptions C39_tuple128.
Theorem C39_tuple256 : forall log2 dbg mem calls ds o, Forall2 (designates mem) calls ds ->
  foldM (add_call _ (tuple_span log2 136 0x1F 0x04 dbg) mem) calls o = foldM (oc_feed (Model.TupleHash.cls256 log2 dbg)) ds o.
Proof. exact (fun log2 dbg mem cs ds o => Proof.Overloads.tuple_calls log2 136 0x1F 0x04 dbg mem cs ds o ltac:(lia)). Qed.
Print Assumptions C39_tuple256.

(** a uint32_t array of one element 0x64636261 (little-endian) at 1000, the literal "abc" with its terminating zero at
    2000, two objects of type uint16_t at 3000, and nothing else *)
Definition cells (p : N) (d : list N) (x : N) : option N := if p <=? x then nth_error d (N.to_nat (x - p)) else None.
Definition heap : memory := fun x =>
  match cells 1000 (text "abcd") x with
  | Some b => Some b
  | None => match cells 2000 (text "abc" ++ [0]) x with Some b => Some b | None => cells 3000 (text "xyzw") x end
  end.
Definition heap_calls : list call := [Array 4 1000 1; Array 1 2000 4; TypedSpan 2 3000 2].

Example C39_case_designates : Forall2 (designates heap) heap_calls [text "abcd"; text "abc" ++ [0]; text "xyzw"].
Proof.
  unfold heap_calls. constructor; [|constructor; [|constructor; [|constructor]]].
  - apply (at_array heap 4 1000 [text "abcd"]); [|reflexivity]. intros [|[|i]] e E; try discriminate. injection E as <-.
    split; [reflexivity|]. intros [|[|[|[|[|j]]]]] b E; try discriminate; rewrite <- E; vm_compute; reflexivity.
  - apply (at_array heap 1 2000 [text "a"; text "b"; text "c"; [0]]); [|reflexivity].
    intros [|[|[|[|[|i]]]]] e E; try discriminate; injection E as <-;
      (split; [reflexivity|]); intros [|[|j]] b E; try discriminate; rewrite <- E; vm_compute; reflexivity.
  - apply (at_typed heap 2 3000 [text "xy"; text "zw"]); [|reflexivity].
    intros [|[|[|i]]] e E; try discriminate; injection E as <-;
      (split; [reflexivity|]); intros [|[|[|j]]] b E; try discriminate; rewrite <- E; vm_compute; reflexivity.
Qed.

(** the reads one by one; SHA-1 of "abcdabc\0xyzw" *)
Example C39_case :
  bind (foldM (add_call _ (add_span SHA1 true) heap) heap_calls (c_new (class SHA1 true)))
    (fun x => bind (c_finalize (class SHA1 true) x) (c_array (class SHA1 true))) =
  Ok (unhex "70fe62e654948b212c1b2c6887d465c4808c4426").
Proof. vm_compute. reflexivity. Qed.

(** the memory is real: one byte too many is read out of bounds *)
Example C39_case_beyond :
  foldM (add_call _ (add_span SHA1 true) heap) [Pointer 1000 5] (c_new (class SHA1 true)) = Ub OobRead.
Proof. vm_compute. reflexivity. Qed.
