(** Conversion of a digest to bool. *)
From Coq Require Import String List NArith Arith Lia.
From Verif.Base Require Import Res.
From Verif.Spec Require Import Words Client.
From Verif.Model Require Import Buffer Stream Api Library ToBool.
From Verif.Tests Require Import Kit.
From Verif.Proof Require Import Words Api LibraryLaws.
Import ListNotations.
Local Open Scope N_scope.

Theorem first_byte (a : alg) (dbg : bool) chunks : well_formed a -> unreadable a = false -> Forall span_ok chunks ->
  exists d, hash_chunks (class a dbg) chunks = Ok d /\ length d = digest_size a /\
    to_bool d = Ok (negb (nth 0 d 0 =? 0)) /\ to_bool d = Ok (negb (leading_number 1 d =? 0)).
Proof.
  intros Hw Eu Hx. destruct (library_digest a dbg chunks Hw Eu Hx) as (d & E & _ & L).
  exists d. split; [exact E|]. split; [exact L|]. clear.
  assert (to_bool d = Ok (negb (nth 0 d 0 =? 0))) as E.
  { destruct d as [|b d]; [reflexivity|]. unfold to_bool. cbn [length min]. cbn [for_ aget nth_error]. reflexivity. }
  split; [exact E|]. rewrite E. destruct d as [|b d]; reflexivity.
Qed.

Theorem nonzero_refuted : exists (a : alg) (dbg : bool) chunks d, well_formed a /\ unreadable a = false /\ Forall span_ok chunks /\
  hash_chunks (class a dbg) chunks = Ok d /\ to_bool d = Ok false /\ existsb (fun b => negb (b =? 0)) d = true.
Proof.
  exists MD5, false, [text "168"], (unhex "006f52e9102a8d3be2fe5614f42ba989").
  split; [exact I|]. split; [reflexivity|]. split; [spans|]. split; [vm_compute; reflexivity|]. split; vm_compute; reflexivity.
Qed.
