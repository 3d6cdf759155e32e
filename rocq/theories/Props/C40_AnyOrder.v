(** C40: no order of calls makes an object misbehave: data added after finalize(), finalize() twice, digests read before
    finalize(), objects copied in any of these states.  (The interface comments allow less; C01-C24 speak about what they
    allow.) *)
From Coq Require Import String List NArith Arith Bool.
From Verif.Base Require Import Res.
From Verif.Spec Require Import Words Client Legal AnyOrder.
From Verif.Model Require Import Api Library.
From Verif.Tests Require Import Kit KitLegal.
From Verif.Proof Require Builds AnyOrderLibrary Frozen.
Import ListNotations.

(** Every program runs to its end in both builds, with the same observations: no access out of bounds, no failed assert.
    Asked of the program: spans of bytes, no text of an empty digest; SHA-3 and SHAKE objects have a digest from
    finalize() to reset() only; the short Tiger classes are never read (missing: C24_tiger_refuted). *)
Theorem C40_any_order_partial : forall (a : alg) p, well_formed a ->
  possible_program (negb (unreadable a)) (negb (sponge a)) (negb (digest_size a =? 0)) p ->
  exists os st st', exec (class a true) p (fun _ => c_new (class a true)) = Ok (os, st) /\
    exec (class a false) p (fun _ => c_new (class a false)) = Ok (os, st').
Proof. exact Proof.AnyOrderLibrary.library_any_order. Qed.
Print Assumptions C40_any_order_partial.

(** missing: the text of a SHA-3 or SHAKE object that is not finalized is front() of an empty string, whatever was added *)
Theorem C40_early_text_refuted : forall (a : alg) dbg ms, sponge a = true -> Forall span_ok ms ->
  exec (class a dbg) (map (On 0) (map AddData ms ++ [ToString])) (fun _ => c_new (class a dbg)) = Ub EmptyFront.
Proof. exact Proof.Frozen.library_early. Qed.
Print Assumptions C40_early_text_refuted.

(** The programs meant: nearly everything. *)
Definition wild : list cmd :=
  [On 0 ToArray; On 0 Finalize; On 0 (AddData (text "abc")); On 0 (ToUint 4); On 0 Finalize; On 0 Finalize; CopyTo 1 0; On 1 ToString;
   On 1 (AddData (counting 200)); On 1 ToVector; On 1 Finalize; On 0 Reset; On 0 StdHash; On 0 (AddData (text "abc")); On 0 Finalize; On 0 ToString].
Ltac possible_steps :=
  cbn [possible finalized_by Nat.eqb reads]; unfold op_possible;
  repeat match goal with |- _ /\ _ => split | |- _ -> _ => intros _ end;
  try first [exact I | reflexivity | (left; reflexivity) | (right; reflexivity) | (apply span_okb_ok; vm_compute; reflexivity)].
Example C40_case_possible :
  possible_program (negb (unreadable SHA1)) (negb (sponge SHA1)) (negb (digest_size SHA1 =? 0)) wild /\
  possible_program (negb (unreadable SHA3_256)) (negb (sponge SHA3_256)) (negb (digest_size SHA3_256 =? 0)) wild.
Proof. split; unfold possible_program, wild; possible_steps. Qed.
(** and it is not legal: the theorems on legal programs do not cover it *)
Example C40_case_illegal : forall ne, ~ legal_program ne wild.
Proof. intros ne (s & H). inversion H as [|? ? ? ? ? ? Hop _|]; subst. inversion Hop. Qed.
(** what is seen: the words of the initial value, and at the end the SHA-1 of "abc" *)
Example C40_case : exists o1 o2 o3 o4 st,
  exec (class SHA1 true) wild (fun _ => c_new (class SHA1 true)) =
  Ok ([OBytes (unhex "67452301efcdab8998badcfe10325476c3d2e1f0"); o1; o2; o3; o4; OChars (text "a9993e364706816aba3e25717850c26c9cd0d89d")], st).
Proof. do 5 eexists. vm_compute. reflexivity. Qed.
