(** C24: no legal use reads or writes out of bounds.  C25: debug and release builds compute the same thing. *)
From Coq Require Import String List NArith ZArith Lia.
From Verif.Base Require Import Res.
From Verif.Spec Require Import Words Client Legal ObjClient ObjLegal Log2 Sp800185 CShakeArgs.
From Verif.Model Require Import Api ObjApi Library.
From Verif.Model Require CShake TupleHash.
From Verif.Tests Require Import Kit KitLegal.
From Verif.Proof Require LibraryLaws Builds CShakeSafe CShake TupleHash Log2Witness.
Import ListNotations.

(** Every legal program over any number of objects runs to its end in both builds: no access outside
    the buffer, the block arrays, the span or the result (Ub), no exception or failed assert (Throw), and
    the same observations in both.  All classes but the four short Tiger ones; toString() needs a class with
    a digest of at least one byte. *)
Theorem C24_library_partial : forall (a : alg) p, well_formed a -> unreadable a = false -> legal_program (digest_size a <> 0) p ->
  exists os st st', exec (class a true) p (fun _ => c_new (class a true)) = Ok (os, st) /\
    exec (class a false) p (fun _ => c_new (class a false)) = Ok (os, st').
Proof. exact Proof.LibraryLaws.library_safe. Qed.
Print Assumptions C24_library_partial.

(** missing: the short Tiger classes write past the end of the result *)
Theorem C24_tiger_refuted : forall (a : alg) dbg x, unreadable a = true -> span_ok x ->
  legal_program (digest_size a <> 0) [On 0 (AddData x); On 0 Finalize; On 0 ToArray] /\
  exec (class a dbg) [On 0 (AddData x); On 0 Finalize; On 0 ToArray] (fun _ => c_new (class a dbg)) = Ub OobWrite.
Proof. exact (fun a dbg x Hu Hx => conj (Proof.LibraryLaws.legal_array _ x Hx) (Proof.LibraryLaws.tiger_reads a dbg x Hu Hx)). Qed.
Print Assumptions C24_tiger_refuted.

(** missing: toString() of an empty digest calls front() of an empty string *)
Theorem C24_empty_string_refuted : forall (a : alg) dbg x, well_formed a -> digest_size a = 0 -> span_ok x ->
  exec (class a dbg) [On 0 (AddData x); On 0 Finalize; On 0 ToString] (fun _ => c_new (class a dbg)) = Ub EmptyFront.
Proof. exact Proof.LibraryLaws.empty_string. Qed.
Print Assumptions C24_empty_string_refuted.

(** cSHAKE and TupleHash: all programs that construct, copy, move, assign, feed, reset and read objects,
    where copy assignment stays within one kind of object (missing otherwise: C33_*_refuted) and names,
    customizations and items are within the limit of C17 and C18 (missing otherwise: C17_*_long_refuted,
    C18_*_refuted) *)
Theorem C24_cshake128_partial : forall lg lg' p, log2_accurate lg -> log2_accurate lg' ->
  allowed cempty ok_cargs span_ok may_assign p ->
  exists os st st', oexec (Model.CShake.cls128 lg true) p (fun _ => None) = Ok (os, st) /\
    oexec (Model.CShake.cls128 lg' false) p (fun _ => None) = Ok (os, st').
Proof. exact Proof.CShakeSafe.cshake128_safe. Qed.
Print Assumptions C24_cshake128_partial.
Theorem C24_cshake256_partial : forall lg lg' p, log2_accurate lg -> log2_accurate lg' ->
  allowed cempty ok_cargs span_ok may_assign p ->
  exists os st st', oexec (Model.CShake.cls256 lg true) p (fun _ => None) = Ok (os, st) /\
    oexec (Model.CShake.cls256 lg' false) p (fun _ => None) = Ok (os, st').
Proof. exact Proof.CShakeSafe.cshake256_safe. Qed.
Print Assumptions C24_cshake256_partial.
Theorem C24_tuplehash128_partial : forall lg lg' p, log2_accurate lg -> log2_accurate lg' ->
  allowed tempty ok_targs short live_assign p ->
  exists os st st', oexec (Model.TupleHash.cls128 lg true) p (fun _ => None) = Ok (os, st) /\
    oexec (Model.TupleHash.cls128 lg' false) p (fun _ => None) = Ok (os, st').
Proof. exact Proof.CShakeSafe.tuplehash128_safe. Qed.
Print Assumptions C24_tuplehash128_partial.
Theorem C24_tuplehash256_partial : forall lg lg' p, log2_accurate lg -> log2_accurate lg' ->
  allowed tempty ok_targs short live_assign p ->
  exists os st st', oexec (Model.TupleHash.cls256 lg true) p (fun _ => None) = Ok (os, st) /\
    oexec (Model.TupleHash.cls256 lg' false) p (fun _ => None) = Ok (os, st').
Proof. exact Proof.CShakeSafe.tuplehash256_safe. Qed.
Print Assumptions C24_tuplehash256_partial.

(** ** C25: the same programs, seen as a comparison of the builds *)
Theorem C25_library : forall (a : alg) p os st, well_formed a -> unreadable a = false -> legal_program (digest_size a <> 0) p ->
  exec (class a false) p (fun _ => c_new (class a false)) = Ok (os, st) ->
  exists st', exec (class a true) p (fun _ => c_new (class a true)) = Ok (os, st').
Proof.
  intros a p os st Hw Hu Hp E. destruct (C24_library_partial a p Hw Hu Hp) as (os' & s1 & s2 & E1 & E2).
  rewrite E in E2. injection E2 as <- _. eauto.
Qed.
Print Assumptions C25_library.

(** the assertions reject programs and do nothing else: a program of any kind, legal or not, with any arguments, that
    runs to its end in a debug build shows the same in a release build *)
Theorem C25_checks_only : forall (a : alg) p os st, exec (class a true) p (fun _ => c_new (class a true)) = Ok (os, st) ->
  exists st', exec (class a false) p (fun _ => c_new (class a false)) = Ok (os, st').
Proof. exact (fun a => Proof.Builds.builds_exec (class a) (Proof.Builds.library_builds a)). Qed.
Print Assumptions C25_checks_only.

(** the short Tiger classes fail in the same way in both *)
Theorem C25_tiger : forall (a : alg) x, unreadable a = true -> span_ok x ->
  exec (class a true) [On 0 (AddData x); On 0 Finalize; On 0 ToArray] (fun _ => c_new (class a true)) = Ub OobWrite /\
  exec (class a false) [On 0 (AddData x); On 0 Finalize; On 0 ToArray] (fun _ => c_new (class a false)) = Ub OobWrite.
Proof. exact (fun a x Hu Hx => conj (Proof.LibraryLaws.tiger_reads a true x Hu Hx) (Proof.LibraryLaws.tiger_reads a false x Hu Hx)). Qed.
Print Assumptions C25_tiger.

(** the builds differ for cSHAKE names near 2^56 bits: exception in one, out-of-bounds write in the other *)
Theorem C25_cshake128_refuted : forall lg (length : Z) name custom chunks,
  log2_accurate lg -> (0 <= length)%Z -> long name \/ short name /\ long custom ->
  ohash (Model.CShake.cls128 lg true) (length, name, custom) chunks = Throw OutOfRange /\
  ohash (Model.CShake.cls128 lg false) (length, name, custom) chunks = Ub OobWrite.
Proof.
  exact (fun lg l n c chunks Hlg Hl H => conj (Proof.CShake.cshake128_long lg true l n c chunks Hlg Hl H) (Proof.CShake.cshake128_long lg false l n c chunks Hlg Hl H)).
Qed.
Print Assumptions C25_cshake128_refuted.

(** cSHAKE and TupleHash within the limits *)
Theorem C25_cshake128_partial : forall lg p os st, log2_accurate lg -> allowed cempty ok_cargs span_ok may_assign p ->
  oexec (Model.CShake.cls128 lg false) p (fun _ => None) = Ok (os, st) ->
  exists st', oexec (Model.CShake.cls128 lg true) p (fun _ => None) = Ok (os, st').
Proof.
  intros lg p os st Hl Hp E. destruct (C24_cshake128_partial lg lg p Hl Hl Hp) as (os' & s1 & s2 & E1 & E2).
  rewrite E in E2. injection E2 as <- _. eauto.
Qed.
Print Assumptions C25_cshake128_partial.
Theorem C25_cshake256_partial : forall lg p os st, log2_accurate lg -> allowed cempty ok_cargs span_ok may_assign p ->
  oexec (Model.CShake.cls256 lg false) p (fun _ => None) = Ok (os, st) ->
  exists st', oexec (Model.CShake.cls256 lg true) p (fun _ => None) = Ok (os, st').
Proof.
  intros lg p os st Hl Hp E. destruct (C24_cshake256_partial lg lg p Hl Hl Hp) as (os' & s1 & s2 & E1 & E2).
  rewrite E in E2. injection E2 as <- _. eauto.
Qed.
Print Assumptions C25_cshake256_partial.
Theorem C25_tuplehash128_partial : forall lg p os st, log2_accurate lg -> allowed tempty ok_targs short live_assign p ->
  oexec (Model.TupleHash.cls128 lg false) p (fun _ => None) = Ok (os, st) ->
  exists st', oexec (Model.TupleHash.cls128 lg true) p (fun _ => None) = Ok (os, st').
Proof.
  intros lg p os st Hl Hp E. destruct (C24_tuplehash128_partial lg lg p Hl Hl Hp) as (os' & s1 & s2 & E1 & E2).
  rewrite E in E2. injection E2 as <- _. eauto.
Qed.
Print Assumptions C25_tuplehash128_partial.
Theorem C25_tuplehash256_partial : forall lg p os st, log2_accurate lg -> allowed tempty ok_targs short live_assign p ->
  oexec (Model.TupleHash.cls256 lg false) p (fun _ => None) = Ok (os, st) ->
  exists st', oexec (Model.TupleHash.cls256 lg true) p (fun _ => None) = Ok (os, st').
Proof.
  intros lg p os st Hl Hp E. destruct (C24_tuplehash256_partial lg lg p Hl Hl Hp) as (os' & s1 & s2 & E1 & E2).
  rewrite E in E2. injection E2 as <- _. eauto.
Qed.
Print Assumptions C25_tuplehash256_partial.

(** programs meeting the hypotheses *)
Example C24_case_legal : legal_program (digest_size (SHAKE_128 500) <> 0) demo.
Proof. apply demo_is_legal. discriminate. Qed.
Example C24_case : exists st, exec (class SHA1 true) [On 0 (AddData (counting 130)); On 0 Finalize; On 0 (ToUint 8)] (fun _ => c_new (class SHA1 true)) =
  Ok ([ONum 0x6981ed7d97ffca51], st).
Proof. eexists. vm_compute. reflexivity. Qed.
Example C24_case_cshake : allowed cempty ok_cargs span_ok may_assign cshake_allowed.
Proof. exact cshake_is_allowed. Qed.
Example C24_case_tuple : allowed tempty ok_targs short live_assign tuple_allowed.
Proof. exact tuple_is_allowed. Qed.
Example C24_case_log2 : log2_accurate Proof.Log2Witness.correct_log2.
Proof. exact Proof.Log2Witness.correct_log2_accurate. Qed.
Example C24_case_tiger : unreadable Tiger2_160 = true /\ span_ok (text "abc") /\ digest_size (SHAKE_256 0) = 0.
Proof. split; [reflexivity|]. split; [apply span_okb_ok; reflexivity|reflexivity]. Qed.
