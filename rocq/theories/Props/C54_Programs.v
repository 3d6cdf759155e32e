(** C54: objects of the Merkle-Damgard classes in any order of calls: exactly which bytes every call shows. *)
From Coq Require Import String List NArith Arith Bool.
From Verif.Base Require Import Res.
From Verif.Spec Require Import Words Client AnyOrder Ledger.
From Verif.Model Require Import Buffer Stream Api Library.
From Verif.Tests Require Import Kit.
From Verif.Proof Require Import LedgerLib LedgerLaws.
Import ListNotations.
Local Open Scope N_scope.

(** Every program over objects of such a class: addData after finalize, finalize again, digests read at any time, copies, anything; data of
    any total length.  (Tiger1_128, Tiger1_160, Tiger2_128 and Tiger2_160 cannot show a digest at all, C11.) *)
Theorem C54_exact : forall a S dbg p, scheme_of a = Some S -> Forall (callable (negb (unreadable a))) p ->
  exists st, exec (class a dbg) p (fun _ => c_new (class a dbg)) = Ok (told (ledger_kind S) p (fun _ => l_new), st).
Proof. intros a S dbg p HS. exact (library_told a S dbg HS p). Qed.
Print Assumptions C54_exact.

(** ** what follows *)

(** One finalize() gives the digest of the standard. *)
Theorem C54_standard : forall a S h dbg m, scheme_of a = Some S -> standard_of a = Some h -> unreadable a = false -> span_ok m ->
  (8 * N.of_nat (length m) < 2 ^ s_width S) ->
  exists st, exec (class a dbg) [On 0 (AddData m); On 0 Finalize; On 0 ToVector] (fun _ => c_new (class a dbg)) = Ok ([OBytes (h m)], st).
Proof.
  intros a S h dbg m HS Hh Hu Hm Hl. destruct (once a S dbg HS Hu m Hm) as (st & E). exists st.
  now rewrite E, (standards a S h m HS Hh Hl).
Qed.
Print Assumptions C54_standard.

(** A digest read before finalize() does not depend on the bytes of the incomplete block. *)
Theorem C54_early : forall a S dbg m w, scheme_of a = Some S -> unreadable a = false -> span_ok m -> span_ok w ->
  (length m mod s_block S = 0)%nat -> (length w < s_block S)%nat ->
  exists st, exec (class a dbg) [On 0 (AddData m); On 0 (AddData w); On 0 ToVector] (fun _ => c_new (class a dbg)) = Ok ([OBytes (s_shown S m)], st).
Proof. intros a S dbg m w HS Hu. exact (early a S dbg HS Hu m w). Qed.
Print Assumptions C54_early.

(** Data after finalize() and finalize() again: the digest of the padded message with the new data behind it, but with another length: too
    long by the bytes of the incomplete block, and, for the classes with a Uint128 counter, by seven times the length of the message. *)
Theorem C54_again : forall a S dbg m d, scheme_of a = Some S -> unreadable a = false -> span_ok m -> span_ok d ->
  let y := (m ++ closed S (length m) (N.of_nat (length m))) ++ d in
  let extra := if s_factor S =? 1 then 0 else 7 * N.of_nat (length m) in
  exists st, exec (class a dbg) [On 0 (AddData m); On 0 Finalize; On 0 (AddData d); On 0 Finalize; On 0 ToVector] (fun _ => c_new (class a dbg)) =
    Ok ([OBytes (s_shown S (y ++ closed S (length y) (N.of_nat (length y) + N.of_nat (length m mod s_block S) + extra)))], st).
Proof. intros a S dbg m d HS Hu. exact (again a S dbg HS Hu m d). Qed.
Print Assumptions C54_again.

(** It is a digest of the hash function where these are zero: then an object continues like one that was given the padded message *)
Theorem C54_again_genuine : forall a S dbg m d, scheme_of a = Some S -> unreadable a = false -> span_ok m -> span_ok d ->
  (length m mod s_block S = 0)%nat -> s_factor S = 1 \/ m = [] ->
  let x := m ++ closed S (length m) (N.of_nat (length m)) in span_ok (x ++ d) ->
  exists o st st', exec (class a dbg) [On 0 (AddData m); On 0 Finalize; On 0 (AddData d); On 0 Finalize; On 0 ToVector] (fun _ => c_new (class a dbg)) = Ok (o, st) /\
    exec (class a dbg) [On 0 (AddData (x ++ d)); On 0 Finalize; On 0 ToVector] (fun _ => c_new (class a dbg)) = Ok (o, st').
Proof. intros a S dbg m d HS Hu. exact (again_genuine a S dbg HS Hu m d). Qed.
Print Assumptions C54_again_genuine.

(** and otherwise the last block is another one than the hash function puts there. *)
Theorem C54_again_field : forall a S m d, scheme_of a = Some S -> N.of_nat (length m + length d) < 2 ^ 56 ->
  (length m mod s_block S <> 0)%nat \/ s_factor S <> 1 /\ m <> [] ->
  let y := (m ++ closed S (length m) (N.of_nat (length m))) ++ d in
  let extra := if s_factor S =? 1 then 0 else 7 * N.of_nat (length m) in
  closed S (length y) (N.of_nat (length y) + N.of_nat (length m mod s_block S) + extra) <> closed S (length y) (N.of_nat (length y)).
Proof. intros a S m d HS. exact (again_field a S HS m d). Qed.
Print Assumptions C54_again_field.

(** After any history reset() makes the object good again. *)
Theorem C54_recovers : forall a S dbg p i m, scheme_of a = Some S -> unreadable a = false -> Forall (callable true) p -> span_ok m ->
  exists os d st st', exec (class a dbg) p (fun _ => c_new (class a dbg)) = Ok (os, st) /\
    exec (class a dbg) (p ++ [On i Reset; On i (AddData m); On i Finalize; On i ToVector]) (fun _ => c_new (class a dbg)) = Ok (os ++ [d], st') /\
    d = OBytes (s_shown S (m ++ closed S (length m) (N.of_nat (length m)))).
Proof. intros a S dbg p i m HS Hu. exact (recovers a S dbg HS Hu p i m). Qed.
Print Assumptions C54_recovers.

(** ** cases *)
Definition reads_of {A} (r : res (list obs * A)) : option (list obs) := match r with Ok (os, _) => Some os | _ => None end.

(** "abc" in SHA1: before finalize() the initial value; the digest; finalize() again; another object is unharmed *)
Example C54_case_sha1 : let C := class SHA1 true in
  reads_of (exec C [On 0 (AddData (text "abc")); On 0 ToArray; CopyTo 1 0; On 0 Finalize; On 0 ToString; On 0 Finalize; On 0 ToString;
    On 1 Finalize; On 1 ToString] (fun _ => c_new C)) =
  Some [OBytes (unhex "67452301efcdab8998badcfe10325476c3d2e1f0"); OChars (text "a9993e364706816aba3e25717850c26c9cd0d89d");
    OChars (text "3c2b2bec376e9f6a527b308053cd65de6c640090"); OChars (text "a9993e364706816aba3e25717850c26c9cd0d89d")].
Proof. vm_compute. reflexivity. Qed.
(** the second length field: 3 bytes of data, 61 of padding, and 3 bytes counted twice *)
Example C54_case_field : left (ledger_kind sha1) [On 0 (AddData (text "abc")); On 0 Finalize] (fun _ => l_new) 0%nat =
  mkLedger (text "abc" ++ [128] ++ repeat 0 59 ++ [24]) (3 + 61 + 3).
Proof. vm_compute. reflexivity. Qed.
(** a full block, the digest continued: SHA-1 of the padded block followed by "xyz" (2b98c7af... by a program not of this library) *)
Example C54_case_extended : let C := class SHA1 false in
  reads_of (exec C [On 0 (AddData (counting 64)); On 0 Finalize; On 0 (AddData (text "xyz")); On 0 Finalize; On 0 ToString] (fun _ => c_new C)) =
  Some [OChars (text "2b98c7af2e54e92d4dbc88320b07ff7a08156a56")].
Proof. vm_compute. reflexivity. Qed.
(** "abc" twice in SHA2_512, whose counter has become a number of bits by then *)
Example C54_case_sha512 : let C := class SHA2_512 false in
  reads_of (exec C [On 0 (AddData (text "abc")); On 0 Finalize; On 0 Finalize; On 0 ToArray] (fun _ => c_new C)) =
  Some [OBytes (unhex "b16fee5ecfc02b877e6bacb5c3a43fdf7edc490af4ab4c9aa19a03ee5c994e93e9b14b635f4d1961612ffb611bbb137a9cd1fd49259e9d8823b77a482a1083e6")].
Proof. vm_compute. reflexivity. Qed.
Example C54_case_field_sha512 : left (ledger_kind sha512) [On 0 (AddData (text "abc")); On 0 Finalize] (fun _ => l_new) 0%nat =
  mkLedger (text "abc" ++ [128] ++ repeat 0 123 ++ [24]) (8 * 3 + 125 + 3).
Proof. vm_compute. reflexivity. Qed.
(** the same message as a full block: not the digest of the padded message (bff0b7c5...) *)
Example C54_case_sha512_full : let C := class SHA2_512 false in
  reads_of (exec C [On 0 (AddData (counting 128)); On 0 Finalize; On 0 (AddData (text "xyz")); On 0 Finalize; On 0 ToArray] (fun _ => c_new C)) =
  Some [OBytes (unhex "69fd7a9081297f68f224f8c4a7578733a792f80552e3e60a3815b3e0a9357e3b82ddb896b117f844871538e0dfe08e0d7b919f082cbb1189aebbcb1b0a42f82c")].
Proof. vm_compute. reflexivity. Qed.
