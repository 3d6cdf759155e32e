(** C55: objects of the other classes (CRC-32, FNV, MD2, SipHash, BLAKE, BLAKE2) in any order of calls: exactly which bytes every call
    shows. *)
From Coq Require Import String List NArith Arith Bool.
From Verif.Base Require Import Res.
From Verif.Spec Require Import Words Client AnyOrder Ledger Registers.
From Verif.Spec Require Md2.
From Verif.Model Require Import Buffer Stream Api Library.
From Verif.Tests Require Import Kit.
From Verif.Proof Require Import RegistersLib.
Import ListNotations.
Local Open Scope N_scope.

(** Every program over objects of such a class: addData after finalize, finalize again, digests read at any time, copies, anything; data of
    any total length. *)
Theorem C55_exact : forall a k dbg p, well_formed a -> kind_of a = Some k -> Forall (callable true) p ->
  exists st, exec (class a dbg) p (fun _ => c_new (class a dbg)) = Ok (told k p (fun _ => k_new k), st).
Proof. intros a k dbg p Hwf Hk. exact (ran a k dbg Hwf Hk p). Qed.
Print Assumptions C55_exact.

(** ** what follows *)

(** One finalize() gives the value of the standard (for BLAKE: unless the code's fault with the last blocks shows, C13). *)
Theorem C55_standard : forall a k h dom dbg m, well_formed a -> kind_of a = Some k -> standard_of a = Some (h, dom) -> span_ok m -> dom m ->
  exists st, exec (class a dbg) [On 0 (AddData m); On 0 Finalize; On 0 ToVector] (fun _ => c_new (class a dbg)) = Ok ([OBytes (h m)], st).
Proof.
  intros a k h dom dbg m Hwf Hk Hs Hm Hd. destruct (once a k dbg Hwf Hk m Hm) as (st & E). exists st.
  now rewrite E, (standards a k h dom m Hwf Hk Hs Hm Hd).
Qed.
Print Assumptions C55_standard.

(** After any history reset() makes the object like a new one, in all that is called on it afterwards; FNV-0 is the exception, *)
Theorem C55_recovers : forall a k dbg p i os, well_formed a -> kind_of a = Some k -> is_fnv0 a = false ->
  Forall (callable true) p -> Forall (callable true) (calls_on i os) ->
  exists rs qs st1 st2 st3, exec (class a dbg) p (fun _ => c_new (class a dbg)) = Ok (rs, st1) /\
    exec (class a dbg) (calls_on i os) (fun _ => c_new (class a dbg)) = Ok (qs, st2) /\
    exec (class a dbg) (p ++ On i Reset :: calls_on i os) (fun _ => c_new (class a dbg)) = Ok (rs ++ qs, st3).
Proof. exact anew. Qed.
Print Assumptions C55_recovers.

(** whose reset() does nothing: leaving all of them out changes no read-out. *)
Theorem C55_fnv0_reset : forall a dbg p, is_fnv0 a = true -> Forall (callable true) p ->
  exists rs st st', exec (class a dbg) p (fun _ => c_new (class a dbg)) = Ok (rs, st) /\
    exec (class a dbg) (without resets p) (fun _ => c_new (class a dbg)) = Ok (rs, st').
Proof. exact fnv0_reset. Qed.
Print Assumptions C55_fnv0_reset.

(** finalize() of the FNV classes is never needed. *)
Theorem C55_fnv_finalize : forall a dbg p, is_fnv a = true -> Forall (callable true) p ->
  exists rs st st', exec (class a dbg) p (fun _ => c_new (class a dbg)) = Ok (rs, st) /\
    exec (class a dbg) (without finalizes p) (fun _ => c_new (class a dbg)) = Ok (rs, st').
Proof. exact fnv_finalize. Qed.
Print Assumptions C55_fnv_finalize.

(** In CRC_32 a second finalize() undoes the first, anywhere in any program: all later read-outs are as without both. *)
Theorem C55_crc_twice : forall dbg p q i, Forall (callable true) p -> Forall (callable true) q ->
  exists rs st st', exec (class CRC_32 dbg) (p ++ q) (fun _ => c_new (class CRC_32 dbg)) = Ok (rs, st) /\
    exec (class CRC_32 dbg) (p ++ On i Finalize :: On i Finalize :: q) (fun _ => c_new (class CRC_32 dbg)) = Ok (rs, st').
Proof. exact crc_twice. Qed.
Print Assumptions C55_crc_twice.

(** MD2 with data after finalize() and finalize() again: the digest of the padded message, its checksum and the new data. *)
Theorem C55_md2_again : forall dbg m d, span_ok m -> span_ok d ->
  exists st, exec (class MD2 dbg) [On 0 (AddData m); On 0 Finalize; On 0 (AddData d); On 0 Finalize; On 0 ToVector] (fun _ => c_new (class MD2 dbg)) =
    Ok ([OBytes (Md2.md2 (Md2.pad m ++ Md2.checksum (Md2.pad m) ++ d))], st).
Proof. exact md2_again. Qed.
Print Assumptions C55_md2_again.

(** A digest read before finalize() does not depend on the bytes that wait: those of the incomplete block, in BLAKE2 those of the last. *)
Theorem C55_early : forall a k dbg B keeps m w w', well_formed a -> kind_of a = Some k -> block_of a = Some (B, keeps) ->
  span_ok m -> span_ok w -> span_ok w' -> (length m mod B = 0)%nat -> waits B keeps w -> waits B keeps w' ->
  exists o st st', exec (class a dbg) [On 0 (AddData m); On 0 (AddData w); On 0 ToVector] (fun _ => c_new (class a dbg)) = Ok ([o], st) /\
    exec (class a dbg) [On 0 (AddData m); On 0 (AddData w'); On 0 ToVector] (fun _ => c_new (class a dbg)) = Ok ([o], st').
Proof. exact early. Qed.
Print Assumptions C55_early.

(** SipHash before eight bytes: a constant, whatever the key and the bytes are. *)
Theorem C55_siphash_early : forall dbg k0 k1 m, k0 < 2 ^ 64 -> k1 < 2 ^ 64 -> bytes_ok m -> (length m < 8)%nat ->
  exists st, exec (class (SipHash k0 k1) dbg) [On 0 (AddData m); On 0 ToVector] (fun _ => c_new (class (SipHash k0 k1) dbg)) =
    Ok ([OBytes (unhex "0f1c1c0309061d0a")], st).
Proof. exact sip_early. Qed.
Print Assumptions C55_siphash_early.

(** ** cases *)
Definition reads_of {A} (r : res (list obs * A)) : option (list obs) := match r with Ok (os, _) => Some os | _ => None end.

(** "12345" in CRC_32; finalize() again; "6789" behind it *)
Example C55_case_crc : let C := class CRC_32 true in
  reads_of (exec C [On 0 (AddData (text "12345")); On 0 Finalize; On 0 ToString; On 0 Finalize; On 0 ToString; On 0 (AddData (text "6789"));
    On 0 Finalize; On 0 ToString] (fun _ => c_new C)) =
  Some [OChars (text "cbf53a1c"); OChars (text "340ac5e3"); OChars (text "cbf43926")].
Proof. vm_compute. reflexivity. Qed.

(** "abc" in MD2; finalize() again; another object takes "d" behind the first finalize() *)
Example C55_case_md2 : let C := class MD2 true in
  reads_of (exec C [On 0 (AddData (text "abc")); On 0 Finalize; On 0 ToString; CopyTo 1 0; On 0 Finalize; On 0 ToString;
    On 1 (AddData (text "d")); On 1 Finalize; On 1 ToString] (fun _ => c_new C)) =
  Some [OChars (text "da853b0d3f88d99b30283a69e6ded6bb"); OChars (text "ee4061e2f0e99a8a77275ac692206633");
    OChars (text "6666d8907a7541358079099497ed0046")].
Proof. vm_compute. reflexivity. Qed.

(** BLAKE2s with 64 bytes, which wait; a byte more; finalize() twice *)
Example C55_case_blake2s : let C := class Blake2s true in
  reads_of (exec C [On 0 (AddData (map N.of_nat (seq 0 64))); On 0 ToVector; On 0 (AddData [64]); On 0 ToVector; On 0 Finalize; On 0 ToVector;
    On 0 Finalize; On 0 ToVector] (fun _ => c_new C)) =
  Some [OBytes (unhex "47e6086b85ae67bb72f36e3c3af54fa57f520e518c68059babd9831f19cde05b");
    OBytes (unhex "dc6eb86975bb749c2e10bd252940f283c1329d9abb5022a074a7a03a1d3eb9e4");
    OBytes (unhex "1b53ee94aaf34e4b159d48de352c7f0661d0a40edff95a0b1639b4090e974472");
    OBytes (unhex "47b2e4423619c73f796bc843a110c14c480f2dcee695da94e50cd562be038db6")].
Proof. vm_compute. reflexivity. Qed.

(** FNV-0: "ab", reset(), "cd" *)
Example C55_case_fnv0 : let C := class FNV32_0 true in
  reads_of (exec C [On 0 (AddData (text "ab")); On 0 ToString; On 0 Reset; On 0 (AddData (text "cd")); On 0 Finalize; On 0 ToString] (fun _ => c_new C)) =
  Some [OChars (text "610098d1"); OChars (text "a6b4da44")].
Proof. vm_compute. reflexivity. Qed.
(** FNV-1a: no finalize() *)
Example C55_case_fnv1a : let C := class FNV64_1a true in
  reads_of (exec C [On 0 (AddData (text "a")); On 0 ToString; On 0 (AddData (text "b")); On 0 ToString] (fun _ => c_new C)) =
  Some [OChars (text "af63dc4c8601ec8c"); OChars (text "089c4407b545986a")].
Proof. vm_compute. reflexivity. Qed.
(** SipHash with two keys and five bytes *)
Example C55_case_siphash : let C := class (SipHash 1 2) true in let D := class (SipHash (2 ^ 63) 77) true in
  reads_of (exec C [On 0 (AddData [1; 2; 3; 4; 5]); On 0 ToString] (fun _ => c_new C)) = Some [OChars (text "0f1c1c0309061d0a")] /\
  reads_of (exec D [On 0 ToString] (fun _ => c_new D)) = Some [OChars (text "0f1c1c0309061d0a")].
Proof. split; vm_compute; reflexivity. Qed.

(** ** wrong programs *)
(** an object that a reset() left as it is, and a CRC register that finalize() does not complement, would show something else *)
Example C55_wrong_reset : told fnv32_0 [On 0 (AddData [1]); On 0 Reset; On 0 ToVector] (fun _ => k_new fnv32_0) <>
  told fnv32_0 [On 0 ToVector] (fun _ => k_new fnv32_0).
Proof. vm_compute. discriminate. Qed.
Example C55_wrong_crc : told crc_kind [On 0 Finalize; On 0 ToVector] (fun _ => k_new crc_kind) <> told crc_kind [On 0 ToVector] (fun _ => k_new crc_kind).
Proof. vm_compute. discriminate. Qed.
