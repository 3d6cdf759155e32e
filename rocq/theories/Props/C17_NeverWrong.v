(** C17, C18, C30 without the limit on names, customizations and items: the library gives the right digest or fails; it never
    gives a wrong one.  (The limit in the other theorems is what makes sure that it does not fail.) *)
From Coq Require Import String List NArith ZArith Lia.
From Verif.Base Require Import Res Double.
From Verif.Spec Require Import Words Client ObjClient Log2 AnyString.
From Verif.Spec Require Sp800185.
From Verif.Model Require Import Buffer Stream ObjApi.
From Verif.Model Require CShake TupleHash.
From Verif.Tests Require Import Kit.
From Verif.Proof Require NeverWrong Log2Witness.
Import ListNotations.
Local Open Scope N_scope.

Theorem C30_left_never_wrong : forall lg dbg v, log2_accurate lg -> v <= 2 ^ 63 ->
  (exists b, Model.CShake.leftEncode lg dbg v = Ok b /\ buf_span b = Sp800185.left_encode v) \/
  (Model.CShake.leftEncode lg dbg v = (if dbg then Throw OutOfRange else Ub OobWrite) /\ 2 ^ 56 - 2 ^ 8 < v).
Proof. exact Proof.NeverWrong.left_never. Qed.
Print Assumptions C30_left_never_wrong.

Theorem C30_right_never_wrong : forall lg dbg v, log2_accurate lg -> v <= 2 ^ 63 ->
  (exists b, Model.TupleHash.rightEncode lg dbg v = Ok b /\ buf_span b = Sp800185.right_encode v) \/
  (Model.TupleHash.rightEncode lg dbg v = (if dbg then Throw OutOfRange else Ub OobWrite) /\ 2 ^ 56 - 2 ^ 8 < v).
Proof. exact Proof.NeverWrong.right_never. Qed.
Print Assumptions C30_right_never_wrong.

Theorem C17_cshake128_never_wrong : forall lg dbg length name custom chunks, log2_accurate lg -> (0 <= length)%Z ->
  in_memory name -> in_memory custom -> Forall span_ok chunks ->
  ohash (Model.CShake.cls128 lg dbg) (length, name, custom) chunks = Ok (Sp800185.cshake128 (Z.to_nat length) name custom (concat chunks)) \/
  (ohash (Model.CShake.cls128 lg dbg) (length, name, custom) chunks = (if dbg then Throw OutOfRange else Ub OobWrite) /\
    (too_long name \/ too_long custom)).
Proof. exact Proof.NeverWrong.cshake128_either. Qed.
Print Assumptions C17_cshake128_never_wrong.

Theorem C17_cshake256_never_wrong : forall lg dbg length name custom chunks, log2_accurate lg -> (0 <= length)%Z ->
  in_memory name -> in_memory custom -> Forall span_ok chunks ->
  ohash (Model.CShake.cls256 lg dbg) (length, name, custom) chunks = Ok (Sp800185.cshake256 (Z.to_nat length) name custom (concat chunks)) \/
  (ohash (Model.CShake.cls256 lg dbg) (length, name, custom) chunks = (if dbg then Throw OutOfRange else Ub OobWrite) /\
    (too_long name \/ too_long custom)).
Proof. exact Proof.NeverWrong.cshake256_either. Qed.
Print Assumptions C17_cshake256_never_wrong.

Theorem C18_tuplehash128_never_wrong : forall lg dbg length custom tuple, log2_accurate lg -> (0 <= length)%Z ->
  in_memory custom -> Forall in_memory tuple ->
  (ohash (Model.TupleHash.cls128 lg dbg) (length, custom) tuple = Ok (Sp800185.tuplehash128 (Z.to_nat length) custom tuple) /\ (length < 2 ^ 28)%Z) \/
  (ohash (Model.TupleHash.cls128 lg dbg) (length, custom) tuple = (if dbg then Throw OutOfRange else Ub OobWrite) /\
    (too_long custom \/ Exists too_long tuple)) \/
  (ohash (Model.TupleHash.cls128 lg dbg) (length, custom) tuple = Ub SignedOverflow /\ (2 ^ 28 <= length)%Z).
Proof. exact Proof.NeverWrong.tuple128_either. Qed.
Print Assumptions C18_tuplehash128_never_wrong.

Theorem C18_tuplehash256_never_wrong : forall lg dbg length custom tuple, log2_accurate lg -> (0 <= length)%Z ->
  in_memory custom -> Forall in_memory tuple ->
  (ohash (Model.TupleHash.cls256 lg dbg) (length, custom) tuple = Ok (Sp800185.tuplehash256 (Z.to_nat length) custom tuple) /\ (length < 2 ^ 28)%Z) \/
  (ohash (Model.TupleHash.cls256 lg dbg) (length, custom) tuple = (if dbg then Throw OutOfRange else Ub OobWrite) /\
    (too_long custom \/ Exists too_long tuple)) \/
  (ohash (Model.TupleHash.cls256 lg dbg) (length, custom) tuple = Ub SignedOverflow /\ (2 ^ 28 <= length)%Z).
Proof. exact Proof.NeverWrong.tuple256_either. Qed.
Print Assumptions C18_tuplehash256_never_wrong.

(** a value in the zone that the other theorems leave open: it needs seven bytes, and 2^56 - 8 is closer to 2^56 than its
    logarithm to any double but 56 *)
Example C30_zone : 2 ^ 56 - 2 ^ 8 < 2 ^ 56 - 8 < 2 ^ 56 - 4.
Proof. split; reflexivity. Qed.
(** a name of 2^56 - 8 bits; either way a too long name is the only reason to fail *)
Example C17_zone : let name := repeat 65 (N.to_nat (2 ^ 53 - 1)) in in_memory name /\ too_long name.
Proof.
  cbv zeta. unfold in_memory, too_long, Sp800185.bit_length. rewrite repeat_length, N2Nat.id.
  split; [|reflexivity]. split; [|discriminate]. apply Forall_forall. intros x Hx. apply repeat_spec in Hx. subst x. reflexivity.
Qed.
