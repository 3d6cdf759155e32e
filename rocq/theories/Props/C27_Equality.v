(** C27: comparing finalized objects compares digests. *)
From Coq Require Import String List NArith ZArith Lia.
From Verif.Base Require Import Res.
From Verif.Spec Require Import Words Client Legal ObjClient ObjLegal Log2 Sp800185 CShakeArgs.
From Verif.Model Require Import Api ObjApi Library ObjEquality.
From Verif.Model Require CShake TupleHash.
From Verif.Tests Require Import Kit KitObj KitValue KitLegal.
From Verif.Proof Require Equality SpongeEq SpongeNeq Md2Neq ObjEq Log2Witness.
Import ListNotations.
Local Open Scope N_scope.

(** ** The classes whose digest consists of all the words that == compares *)

(** [Reachable]: left by any program whatsoever, so in particular by one that finalizes the object last *)
Theorem C27_library : forall (a : alg) dbg x y, full a = true ->
  Reachable (class a dbg) x -> Reachable (class a dbg) y ->
  exists b d e, equal a dbg x y = Ok b /\ unequal a dbg x y = Ok (negb b) /\
    c_array (class a dbg) x = Ok d /\ c_array (class a dbg) y = Ok e /\ (b = true <-> d = e).
Proof. exact Proof.Equality.library_eq_full. Qed.
Print Assumptions C27_library.

Example C27_case : forall t, exec (class MD5 false)
  [On 0 (AddData (text "abc")); On 0 Finalize; On 1 (AddData (text "a")); On 1 (AddData (text "bc")); On 1 Finalize; On 2 (AddData (text "abd")); On 2 Finalize]
  (fun _ => c_new (class MD5 false)) = t -> exists st, t = Ok ([], st) /\
  equal MD5 false (st 0%nat) (st 1%nat) = Ok true /\ equal MD5 false (st 0%nat) (st 2%nat) = Ok false /\ unequal MD5 false (st 0%nat) (st 2%nat) = Ok true.
Proof. intros t <-. eexists. split; [vm_compute; reflexivity|]. vm_compute. auto. Qed.

(** ** The other classes: == compares more than the digest shows *)

(** equal objects have equal digests *)
Theorem C27_truncated_partial : forall (a : alg) dbg x y, well_formed a -> sponge a = false -> unreadable a = false ->
  Reachable (class a dbg) x -> Reachable (class a dbg) y ->
  exists b d e, equal a dbg x y = Ok b /\ unequal a dbg x y = Ok (negb b) /\
    c_array (class a dbg) x = Ok d /\ c_array (class a dbg) y = Ok e /\ (b = true -> d = e).
Proof. exact Proof.Equality.library_eq_forward. Qed.
Print Assumptions C27_truncated_partial.
Theorem C27_sponge_partial : forall (a : alg) dbg x y, sponge a = true ->
  Finalized (class a dbg) x -> Finalized (class a dbg) y ->
  equal a dbg x y = Ok true -> exists d, c_array (class a dbg) x = Ok d /\ c_array (class a dbg) y = Ok d.
Proof. exact Proof.SpongeEq.sponge_eq_digest. Qed.
Print Assumptions C27_sponge_partial.
Theorem C27_total : forall (a : alg) dbg x y, well_formed a -> Reachable (class a dbg) x -> Reachable (class a dbg) y ->
  exists b, equal a dbg x y = Ok b /\ unequal a dbg x y = Ok (negb b).
Proof. exact Proof.Equality.library_eq_total. Qed.
Print Assumptions C27_total.

Example C27_sponge_case : exists x y, Finalized (class SHA3_256 false) x /\ Finalized (class SHA3_256 false) y /\ equal SHA3_256 false x y = Ok true /\
  c_array (class SHA3_256 false) x = Ok (unhex "3a985da74fe225b2045c172d6bd390bd855f086e3e9d525b46bfe24511431532").
Proof.
  set (p := [On 0 (AddData (text "abc")); On 0 Finalize; On 1 (AddData (text "a")); On 1 (AddData (text "bc")); On 1 Finalize]).
  assert (match exec (class SHA3_256 false) p (fun _ => c_new (class SHA3_256 false)) with
    | Ok r => equal SHA3_256 false (snd r 0%nat) (snd r 1%nat) = Ok true /\
        c_array (class SHA3_256 false) (snd r 0%nat) = Ok (unhex "3a985da74fe225b2045c172d6bd390bd855f086e3e9d525b46bfe24511431532")
    | _ => False end) as H by (vm_compute; split; reflexivity).
  destruct (exec (class SHA3_256 false) p (fun _ => c_new (class SHA3_256 false))) as [[os st]| |] eqn:E; [|contradiction|contradiction].
  assert (exists s, legal True p (fun _ => false) s /\ s 0%nat = true /\ s 1%nat = true) as (s & Hl & H0 & H1).
  { eexists. split; [unfold p; legal_steps|]. split; reflexivity. }
  exists (st 0%nat), (st 1%nat). split; [exists True, p, s, os, st, 0%nat; auto|]. split; [exists True, p, s, os, st, 1%nat; auto|]. exact H.
Qed.

(** not conversely.  SHA-3 and SHAKE: there are more states than digests.  Two messages of one block have
    different states, because KECCAK-f is injective, and some two of them share their digest. *)
Theorem C27_sponge_refuted : forall (a : alg) dbg, sponge a = true -> (digest_size a <= 134)%nat -> exists m m' x y u, bytes_ok m /\ bytes_ok m' /\
  hashed (class a dbg) m x /\ hashed (class a dbg) m' y /\ c_array (class a dbg) x = Ok u /\ c_array (class a dbg) y = Ok u /\
  equal a dbg x y = Ok false.
Proof. exact Proof.SpongeNeq.sponge_collision. Qed.
Print Assumptions C27_sponge_refuted.

(** MD2: == compares 48 bytes, the digest is the first 16 of them.  Messages of one block have different checksums, hence
    different states; with the empty message there is one message more than there are digests. *)
Theorem C27_md2_refuted : forall dbg, exists m m' x y u, bytes_ok m /\ bytes_ok m' /\ length m = 16%nat /\ (length m' = 16%nat \/ m' = []) /\
  hashed (class MD2 dbg) m x /\ hashed (class MD2 dbg) m' y /\ c_array (class MD2 dbg) x = Ok u /\ c_array (class MD2 dbg) y = Ok u /\
  equal MD2 dbg x y = Ok false.
Proof. exact Proof.Md2Neq.md2_collision. Qed.
Print Assumptions C27_md2_refuted.

(** SipHash: two messages with the same tag *)
Definition sip := SipHash 0x0706050403020100 0x0f0e0d0c0b0a0908.
Theorem C27_siphash_refuted : exists x y d,
  hashed (class sip false) (unhex "7ed2c8ef345a6ac4") x /\ hashed (class sip false) (unhex "48881e57305f482a") y /\
  c_array (class sip false) x = Ok d /\ c_array (class sip false) y = Ok d /\ equal sip false x y = Ok false.
Proof.
  pose (h m := bind (c_add (class sip false) m (c_new (class sip false))) (c_finalize (class sip false))).
  assert (match h (unhex "7ed2c8ef345a6ac4"), h (unhex "48881e57305f482a") with
    | Ok x, Ok y => c_array (class sip false) x = Ok (unhex "2dda28817c87b080") /\ c_array (class sip false) y = Ok (unhex "2dda28817c87b080") /\
        equal sip false x y = Ok false
    | _, _ => False end) as H by (vm_compute; auto).
  assert (forall m x, h m = Ok x -> hashed (class sip false) m x) as Hh.
  { intros m x E. unfold h in E. destruct (c_add (class sip false) m (c_new (class sip false))) as [x0| |] eqn:E0; [|discriminate|discriminate].
    exists x0. split; [exact E0|exact E]. }
  destruct (h (unhex "7ed2c8ef345a6ac4")) as [x| |] eqn:Ex; [|contradiction|contradiction].
  destruct (h (unhex "48881e57305f482a")) as [y| |] eqn:Ey; [|contradiction|contradiction].
  exists x, y, (unhex "2dda28817c87b080"). split; [now apply Hh|]. split; [now apply Hh|]. exact H.
Qed.
Print Assumptions C27_siphash_refuted.

(** SHAKE: == does not compare the digest length, so that objects of the same class whose digests have different
    lengths are equal.  For all messages and all lengths up to one block. *)
Theorem C27_shake128_refuted : forall dbg d e m, (d <= 168)%nat -> (e <= 168)%nat -> span_ok m -> exists x y u v,
  hashed (class (SHAKE_128 d) dbg) m x /\ hashed (class (SHAKE_128 e) dbg) m y /\
  c_array (class (SHAKE_128 d) dbg) x = Ok u /\ c_array (class (SHAKE_128 e) dbg) y = Ok v /\
  length u = d /\ length v = e /\ keccak_eq x y = Ok true.
Proof. exact Proof.SpongeNeq.shake128_lengths. Qed.
Print Assumptions C27_shake128_refuted.
Theorem C27_shake256_refuted : forall dbg d e m, (d <= 136)%nat -> (e <= 136)%nat -> span_ok m -> exists x y u v,
  hashed (class (SHAKE_256 d) dbg) m x /\ hashed (class (SHAKE_256 e) dbg) m y /\
  c_array (class (SHAKE_256 d) dbg) x = Ok u /\ c_array (class (SHAKE_256 e) dbg) y = Ok v /\
  length u = d /\ length v = e /\ keccak_eq x y = Ok true.
Proof. exact Proof.SpongeNeq.shake256_lengths. Qed.
Print Assumptions C27_shake256_refuted.

(** ** cSHAKE and TupleHash, 128 bits *)

(** two finalized objects of any promised program with the same digest length: equal objects have equal digests *)
Theorem C27_cshake128_partial : forall lg dbg, log2_accurate lg -> forall p os s' i j l n c items n' c' items',
  orun (fun a l => cshake128 a (concat l)) ok_cargs span_ok may_reset may_assign p (fun _ => NoObject) os s' ->
  s' i = Live (mkO (l, n, c) items true) -> s' j = Live (mkO (l, n', c') items' true) ->
  exists st x y b d e, oexec (Model.CShake.cls128 lg dbg) p (fun _ => None) = Ok (os, st) /\ st i = Some x /\ st j = Some y /\
    cshake_eq x y = Ok b /\ oc_vector (Model.CShake.cls128 lg dbg) x = Ok d /\ oc_vector (Model.CShake.cls128 lg dbg) y = Ok e /\ (b = true -> d = e).
Proof. exact Proof.ObjEq.cshake128_eq_digest. Qed.
Print Assumptions C27_cshake128_partial.
(** any two live objects can be compared *)
Theorem C27_cshake128_total : forall lg dbg, log2_accurate lg -> forall p os s' i j o o',
  orun (fun a l => cshake128 a (concat l)) ok_cargs span_ok may_reset may_assign p (fun _ => NoObject) os s' -> s' i = Live o -> s' j = Live o' ->
  exists st x y b, oexec (Model.CShake.cls128 lg dbg) p (fun _ => None) = Ok (os, st) /\ st i = Some x /\ st j = Some y /\
    cshake_eq x y = Ok b /\ cshake_neq x y = Ok (negb b).
Proof. exact Proof.ObjEq.cshake128_eq_total. Qed.
Print Assumptions C27_cshake128_total.
(** missing: different digest lengths.  The digests have different lengths, the objects are equal. *)
Theorem C27_cshake128_refuted : forall lg dbg, log2_accurate lg -> forall l l' n c m, (0 <= l <= 168)%Z -> (0 <= l' <= 168)%Z ->
  short n -> short c -> span_ok m ->
  exists st x y d e, oexec (Model.CShake.cls128 lg dbg)
    [Construct 0 (l, n, c); Feed 0 m; Fin 0; Construct 1 (l', n, c); Feed 1 m; Fin 1] (fun _ => None) = Ok ([], st) /\
    st 0%nat = Some x /\ st 1%nat = Some y /\ cshake_eq x y = Ok true /\
    oc_vector (Model.CShake.cls128 lg dbg) x = Ok d /\ oc_vector (Model.CShake.cls128 lg dbg) y = Ok e /\
    length d = Z.to_nat l /\ length e = Z.to_nat l'.
Proof. exact Proof.ObjEq.cshake128_eq_lengths. Qed.
Print Assumptions C27_cshake128_refuted.

Theorem C27_tuplehash128_partial : forall lg dbg, log2_accurate lg -> forall p os s' i j l c items c' items',
  orun tuplehash128 ok_targs short no_reset live_assign p (fun _ => NoObject) os s' ->
  s' i = Live (mkO (l, c) items true) -> s' j = Live (mkO (l, c') items' true) ->
  exists st x y b d e, oexec (Model.TupleHash.cls128 lg dbg) p (fun _ => None) = Ok (os, st) /\ st i = Some x /\ st j = Some y /\
    tuple_eq x y = Ok b /\ oc_vector (Model.TupleHash.cls128 lg dbg) x = Ok d /\ oc_vector (Model.TupleHash.cls128 lg dbg) y = Ok e /\ (b = true -> d = e).
Proof. exact Proof.ObjEq.tuplehash128_eq_digest. Qed.
Print Assumptions C27_tuplehash128_partial.
Theorem C27_tuplehash128_total : forall lg dbg, log2_accurate lg -> forall p os s' i j o o',
  orun tuplehash128 ok_targs short no_reset live_assign p (fun _ => NoObject) os s' -> s' i = Live o -> s' j = Live o' ->
  exists st x y b, oexec (Model.TupleHash.cls128 lg dbg) p (fun _ => None) = Ok (os, st) /\ st i = Some x /\ st j = Some y /\
    tuple_eq x y = Ok b /\ tuple_neq x y = Ok (negb b).
Proof. exact Proof.ObjEq.tuplehash128_eq_total. Qed.
Print Assumptions C27_tuplehash128_total.

(** ** cSHAKE and TupleHash, 256 bits *)

(** two finalized objects of any promised program with the same digest length: equal objects have equal digests *)
Theorem C27_cshake256_partial : forall lg dbg, log2_accurate lg -> forall p os s' i j l n c items n' c' items',
  orun (fun a l => cshake256 a (concat l)) ok_cargs span_ok may_reset may_assign p (fun _ => NoObject) os s' ->
  s' i = Live (mkO (l, n, c) items true) -> s' j = Live (mkO (l, n', c') items' true) ->
  exists st x y b d e, oexec (Model.CShake.cls256 lg dbg) p (fun _ => None) = Ok (os, st) /\ st i = Some x /\ st j = Some y /\
    cshake_eq x y = Ok b /\ oc_vector (Model.CShake.cls256 lg dbg) x = Ok d /\ oc_vector (Model.CShake.cls256 lg dbg) y = Ok e /\ (b = true -> d = e).
Proof. exact Proof.ObjEq.cshake256_eq_digest. Qed.
Print Assumptions C27_cshake256_partial.
(** any two live objects can be compared *)
Theorem C27_cshake256_total : forall lg dbg, log2_accurate lg -> forall p os s' i j o o',
  orun (fun a l => cshake256 a (concat l)) ok_cargs span_ok may_reset may_assign p (fun _ => NoObject) os s' -> s' i = Live o -> s' j = Live o' ->
  exists st x y b, oexec (Model.CShake.cls256 lg dbg) p (fun _ => None) = Ok (os, st) /\ st i = Some x /\ st j = Some y /\
    cshake_eq x y = Ok b /\ cshake_neq x y = Ok (negb b).
Proof. exact Proof.ObjEq.cshake256_eq_total. Qed.
Print Assumptions C27_cshake256_total.
(** missing: different digest lengths.  The digests have different lengths, the objects are equal. *)
Theorem C27_cshake256_refuted : forall lg dbg, log2_accurate lg -> forall l l' n c m, (0 <= l <= 136)%Z -> (0 <= l' <= 136)%Z ->
  short n -> short c -> span_ok m ->
  exists st x y d e, oexec (Model.CShake.cls256 lg dbg)
    [Construct 0 (l, n, c); Feed 0 m; Fin 0; Construct 1 (l', n, c); Feed 1 m; Fin 1] (fun _ => None) = Ok ([], st) /\
    st 0%nat = Some x /\ st 1%nat = Some y /\ cshake_eq x y = Ok true /\
    oc_vector (Model.CShake.cls256 lg dbg) x = Ok d /\ oc_vector (Model.CShake.cls256 lg dbg) y = Ok e /\
    length d = Z.to_nat l /\ length e = Z.to_nat l'.
Proof. exact Proof.ObjEq.cshake256_eq_lengths. Qed.
Print Assumptions C27_cshake256_refuted.

Theorem C27_tuplehash256_partial : forall lg dbg, log2_accurate lg -> forall p os s' i j l c items c' items',
  orun tuplehash256 ok_targs short no_reset live_assign p (fun _ => NoObject) os s' ->
  s' i = Live (mkO (l, c) items true) -> s' j = Live (mkO (l, c') items' true) ->
  exists st x y b d e, oexec (Model.TupleHash.cls256 lg dbg) p (fun _ => None) = Ok (os, st) /\ st i = Some x /\ st j = Some y /\
    tuple_eq x y = Ok b /\ oc_vector (Model.TupleHash.cls256 lg dbg) x = Ok d /\ oc_vector (Model.TupleHash.cls256 lg dbg) y = Ok e /\ (b = true -> d = e).
Proof. exact Proof.ObjEq.tuplehash256_eq_digest. Qed.
Print Assumptions C27_tuplehash256_partial.
Theorem C27_tuplehash256_total : forall lg dbg, log2_accurate lg -> forall p os s' i j o o',
  orun tuplehash256 ok_targs short no_reset live_assign p (fun _ => NoObject) os s' -> s' i = Live o -> s' j = Live o' ->
  exists st x y b, oexec (Model.TupleHash.cls256 lg dbg) p (fun _ => None) = Ok (os, st) /\ st i = Some x /\ st j = Some y /\
    tuple_eq x y = Ok b /\ tuple_neq x y = Ok (negb b).
Proof. exact Proof.ObjEq.tuplehash256_eq_total. Qed.
Print Assumptions C27_tuplehash256_total.

Example C27_cshake_case : exists os s', orun (fun a l => cshake128 a (concat l)) ok_cargs span_ok may_reset may_assign
  [Construct 0 (32%Z, text "n", text "c"); Feed 0 (text "ab"); CopyConstruct 1 0; Feed 0 (text "x"); Feed 1 (text "y"); Fin 0; Fin 1]
  (fun _ => NoObject) os s' /\
  s' 0%nat = Live (mkO (32%Z, text "n", text "c") [text "ab"; text "x"] true) /\ s' 1%nat = Live (mkO (32%Z, text "n", text "c") [text "ab"; text "y"] true).
Proof.
  exists []. eexists. split.
  - eapply or_silent; [apply os_construct; split; [lia|split; shorts]|].
    eapply or_silent; [eapply os_feed; [reflexivity|one_span]|].
    eapply or_silent; [eapply os_copy; reflexivity|].
    eapply or_silent; [eapply os_feed; [reflexivity|one_span]|].
    eapply or_silent; [eapply os_feed; [reflexivity|one_span]|].
    eapply or_silent; [eapply os_fin; reflexivity|].
    eapply or_silent; [eapply os_fin; reflexivity|].
    apply or_nil.
  - split; reflexivity.
Qed.
