(** C29: the message length counter is exact. *)
From Coq Require Import String List NArith Arith Lia.
From Verif.Base Require Import Res.
From Verif.Spec Require Import Words.
From Verif.Spec Require Blake.
From Verif.Model Require Import Buffer Stream Api Call Counter Library Counted.
From Verif.Model Require Blake1.
From Verif.Tests Require Import Kit.
From Verif.Proof Require Post Count.
Import ListNotations.
Local Open Scope N_scope.

(** *** The two-word counter, at every value *)
Theorem C29_uint128_add : forall lo hi n, lo < 2 ^ 64 -> hi < 2 ^ 64 -> n < 2 ^ 64 ->
  let s := (lo + 2 ^ 64 * hi + n) mod 2 ^ 128 in u128_add (mkU128 lo hi) n = mkU128 (s mod 2 ^ 64) (s / 2 ^ 64).
Proof. exact Proof.Count.u128_add_exact. Qed.
Print Assumptions C29_uint128_add.
Theorem C29_uint128_times8 : forall lo hi, lo < 2 ^ 64 -> hi < 2 ^ 64 ->
  let s := (8 * (lo + 2 ^ 64 * hi)) mod 2 ^ 128 in u128_mul8 (mkU128 lo hi) = mkU128 (s mod 2 ^ 64) (s / 2 ^ 64).
Proof. exact Proof.Count.u128_mul8_exact. Qed.
Print Assumptions C29_uint128_times8.
(** the carry, and the wrap of the high word *)
Example C29_carry : u128_add (mkU128 (2 ^ 64 - 1) 5) 1 = mkU128 0 6 /\ u128_add (mkU128 (2 ^ 64 - 1) (2 ^ 64 - 1)) 3 = mkU128 2 0 /\
  u128_mul8 (mkU128 (2 ^ 63 + 1) 1) = mkU128 8 12.
Proof. vm_compute. auto. Qed.

(** *** addData: all classes with a counter, all objects between two calls (whatever their counter), all spans *)
Theorem C29_add : forall (a : alg) dbg d x W y, width_of a = Some W -> between a dbg x -> N.of_nat (length d) < 2 ^ 64 ->
  c_add (class a dbg) d x = Ok y ->
  between a dbg y /\ taken a dbg y mod 2 ^ W = (taken a dbg x + unit_of a * N.of_nat (length d)) mod 2 ^ W.
Proof. exact (fun a dbg d x W y H1 H2 H3 => Proof.Count.add_step a dbg d x W H1 H2 H3 y). Qed.
Print Assumptions C29_add.
(** ... and any number of calls on a new object *)
Theorem C29_chunks : forall (a : alg) dbg W ds y, width_of a = Some W -> Forall (fun d => N.of_nat (length d) < 2 ^ 64) ds ->
  foldM (c_add (class a dbg)) ds (c_new (class a dbg)) = Ok y ->
  between a dbg y /\ taken a dbg y mod 2 ^ W = (unit_of a * N.of_nat (length (concat ds))) mod 2 ^ W.
Proof. exact (fun a dbg W ds y H1 H2 => Proof.Count.add_all a dbg W ds H1 H2 y). Qed.
Print Assumptions C29_chunks.
(** a SHA-512 object that has counted 2^64 - 128 bytes and holds 127 takes two more *)
Example C29_add_case : forall y, let x := (held 256 (repeat 7 127), mkMD128 (mkU128 (2 ^ 64 - 128) 3) Model.Sha2.iv512) in
  between SHA2_512 true x /\ (c_add (class SHA2_512 true) [1; 2] x = Ok y ->
    taken SHA2_512 true y mod 2 ^ 128 = 2 ^ 64 * 4 + 1).
Proof.
  intros y x. assert (between SHA2_512 true x) as Hx.
  { split; [reflexivity|]. split; [reflexivity|]. split; [exists (repeat 7 127); split; [cbn; lia|reflexivity]|].
    change (127 <= 128 /\ (127 = 128 -> 256 = 128))%nat. lia. }
  split; [exact Hx|]. intros E. destruct (C29_add SHA2_512 true [1; 2] x 128 y eq_refl Hx eq_refl E) as [_ ->]. reflexivity.
Qed.

(** *** finalize: the field of the 64-bit classes, at any value of the counter and for any compression function *)
Theorem C29_field64 : forall H dbg m (be : bool) (compress : list N -> H -> res H) iv arr data cnt h, (length data < 64)%nat ->
  let total := cnt + N.of_nat (length data) in
  exists k, (k < 64)%nat /\ ((length data + 1 + k + 8) mod 64 = 0)%nat /\
  c_finalize (md_class 64 dbg m (if be then write_len_be else write_len_le) compress iv arr) (held 128 data, mkMD cnt h) =
  (let! s := md_impl 64 dbg compress (data ++ [m] ++ repeat 0 k ++ (if be then be_bytes 8 else le_bytes 8) ((8 * total) mod 2 ^ 64))
               (mkMD (total mod 2 ^ 64) h) in Ok (buf_new 128, s)).
Proof. exact @Proof.Count.field64. Qed.
Print Assumptions C29_field64.
Theorem C29_classes64 : forall (a : alg) dbg m be, appends64 a = Some (m, be) ->
  exists H (compress : list N -> H -> res H) iv arr, class a dbg = md_class 64 dbg m (if be then write_len_be else write_len_le) compress iv arr.
Proof. exact Proof.Count.instance64. Qed.
Print Assumptions C29_classes64.
(** from the first byte on: the appended field is the length of all chunks together *)
Theorem C29_appended64 : forall H dbg m (be : bool) (compress : list N -> H -> res H) iv arr ds x,
  let C := md_class 64 dbg m (if be then write_len_be else write_len_le) compress iv arr in
  Forall (fun d => N.of_nat (length d) < 2 ^ 64) ds -> foldM (c_add C) ds (c_new C) = Ok x ->
  let total := N.of_nat (length (concat ds)) in
  exists k, (k < 64)%nat /\ ((buf_size (fst x) + 1 + k + 8) mod 64 = 0)%nat /\
  c_finalize C x =
  (let! s := md_impl 64 dbg compress (buf_span (fst x) ++ [m] ++ repeat 0 k ++ (if be then be_bytes 8 else le_bytes 8) ((8 * total) mod 2 ^ 64))
               (mkMD (total mod 2 ^ 64) (md_h (snd x))) in Ok (buf_new 128, s)).
Proof. exact @Proof.Count.appended64. Qed.
Print Assumptions C29_appended64.
(** a "compression" that collects the blocks it sees: 2^61 - 1 bytes before the last 2 *)
Definition collect (B : nat) (mem : list N) (h : list N) : res (list N) := Ok (h ++ firstn B mem).
Example C29_field64_case :
  (let! r := c_finalize (md_class 64 true 128 write_len_be (collect 64) [] (@Ok _)) (held 128 [7; 9], mkMD (2 ^ 61 - 1) []) in
   Ok (md_h (snd r))) = Ok ([7; 9; 128] ++ repeat 0 53 ++ [0; 0; 0; 0; 0; 0; 0; 8]).
Proof. vm_compute. reflexivity. Qed.
Example C29_appended64_case :
  (let C := md_class 64 true 128 write_len_le (collect 64) [] (@Ok _) in
   let! x := foldM (c_add C) [counting 60; counting 40] (c_new C) in
   let! r := c_finalize C x in Ok (skipn 64 (md_h (snd r)))) = Ok (skipn 4 (counting 40) ++ [128] ++ repeat 0 19 ++ [32; 3; 0; 0; 0; 0; 0; 0]).
Proof. vm_compute. reflexivity. Qed.

(** *** finalize: the 128-bit classes; Whirlpool has a field of 32 bytes of which it leaves the first 16 zero *)
Theorem C29_field128 : forall H B reserve dbg (compress : list N -> H -> res H) iv arr data lo hi h,
  (16 <= reserve <= B)%nat -> N.of_nat (2 * B) < 2 ^ 64 -> (length data < B)%nat -> lo < 2 ^ 64 -> hi < 2 ^ 64 ->
  let bits := (8 * (lo + 2 ^ 64 * hi + N.of_nat (length data))) mod 2 ^ 128 in
  exists k, (k < B)%nat /\ ((length data + 1 + k + reserve) mod B = 0)%nat /\
  c_finalize (md128_class B reserve dbg compress iv arr) (held (2 * B) data, mkMD128 (mkU128 lo hi) h) =
  (let! s := md128_impl B dbg compress (data ++ [128] ++ repeat 0 k ++ repeat 0 (reserve - 16) ++ be_bytes 16 bits)
               (mkMD128 (mkU128 (bits mod 2 ^ 64) (bits / 2 ^ 64)) h) in Ok (buf_new (2 * B), s)).
Proof. exact @Proof.Count.field128. Qed.
Print Assumptions C29_field128.
Theorem C29_classes128 : forall (a : alg) dbg B r, appends128 a = Some (B, r) ->
  exists H (compress : list N -> H -> res H) iv arr, class a dbg = md128_class B r dbg compress iv arr.
Proof. exact Proof.Count.instance128. Qed.
Print Assumptions C29_classes128.
Theorem C29_appended128 : forall H B reserve dbg (compress : list N -> H -> res H) iv arr ds x,
  (reserve <= B)%nat -> (16 <= reserve)%nat -> N.of_nat (2 * B) < 2 ^ 64 ->
  let C := md128_class B reserve dbg compress iv arr in
  Forall (fun d => N.of_nat (length d) < 2 ^ 64) ds -> foldM (c_add C) ds (c_new C) = Ok x ->
  let bits := (8 * N.of_nat (length (concat ds))) mod 2 ^ 128 in
  exists k, (k < B)%nat /\ ((buf_size (fst x) + 1 + k + reserve) mod B = 0)%nat /\
  c_finalize C x =
  (let! s := md128_impl B dbg compress (buf_span (fst x) ++ [128] ++ repeat 0 k ++ repeat 0 (reserve - 16) ++ be_bytes 16 bits)
               (mkMD128 (mkU128 (bits mod 2 ^ 64) (bits / 2 ^ 64)) (md8_h (snd x))) in Ok (buf_new (2 * B), s)).
Proof. exact @Proof.Count.md128_appended. Qed.
Print Assumptions C29_appended128.
(** 2^64 - 2 bytes counted, 3 held: 2^67 + 8 bits *)
Example C29_field128_case :
  (let! r := c_finalize (md128_class 64 32 true (collect 64) [] (@Ok _)) (held 128 [1; 2; 3], mkMD128 (mkU128 (2 ^ 64 - 2) 0) []) in
   Ok (md8_h (snd r))) = Ok ([1; 2; 3; 128] ++ repeat 0 51 ++ [8; 0; 0; 0; 0; 0; 0; 0; 8]).
Proof. vm_compute. reflexivity. Qed.

(** *** BLAKE: m_sizeCounter counts bits *)
Theorem C29_blake64 : forall r1 r2 r3 r4 T F calls narrow lastbit dbg data c h, c < 2 ^ 64 -> (length data < 64)%nat ->
  exists k, (k < 64)%nat /\ ((length data + 1 + k + 8) mod 64 = 0)%nat /\
  Model.Blake1.finalize 32 4 r1 r2 r3 r4 T F calls ctr64 narrow lastbit dbg (held 128 data, (c, h)) =
  (let! s := Model.Blake1.impl 32 4 r1 r2 r3 r4 T F calls ctr64 narrow dbg (k + 8 + 1)
               (data ++ Spec.Blake.marks lastbit k ++ be_bytes 8 ((c + 8 * N.of_nat (length data)) mod 2 ^ 64)) (c, h) in
   Ok (buf_new 128, s)).
Proof. exact Proof.Count.blake1_field64. Qed.
Print Assumptions C29_blake64.
Theorem C29_blake128 : forall r1 r2 r3 r4 T F calls narrow lastbit dbg data lo hi h, lo < 2 ^ 64 -> hi < 2 ^ 64 -> (length data < 128)%nat ->
  exists k, (k < 128)%nat /\ ((length data + 1 + k + 16) mod 128 = 0)%nat /\
  Model.Blake1.finalize 64 8 r1 r2 r3 r4 T F calls ctr128 narrow lastbit dbg (held 256 data, (mkU128 lo hi, h)) =
  (let! s := Model.Blake1.impl 64 8 r1 r2 r3 r4 T F calls ctr128 narrow dbg (k + 16 + 1)
               (data ++ Spec.Blake.marks lastbit k ++ be_bytes 16 ((lo + 2 ^ 64 * hi + 8 * N.of_nat (length data)) mod 2 ^ 128)) (mkU128 lo hi, h) in
   Ok (buf_new 256, s)).
Proof. exact Proof.Count.blake1_field128. Qed.
Print Assumptions C29_blake128.
(** one buffered byte and a low word that is full: what Blake1_512::finalize() appends *)
Example C29_blake_case : (2 ^ 64 - 8 + 2 ^ 64 * 1 + 8 * N.of_nat (length [5])) mod 2 ^ 128 = 2 ^ 65 /\
  be_bytes 16 (2 ^ 65) = [0; 0; 0; 0; 0; 0; 0; 2; 0; 0; 0; 0; 0; 0; 0; 0] /\ Spec.Blake.marks true 1 = [128; 1].
Proof. vm_compute. auto. Qed.

(** *** BLAKE2 appends nothing: its counter is an input of the last compression and is the length modulo its width *)
Theorem C29_blake2b : forall dbg x y, between Blake2 dbg x -> c_finalize (class Blake2 dbg) x = Ok y ->
  fst (counter Blake2 dbg y) + 2 ^ 64 * snd (counter Blake2 dbg y) = taken Blake2 dbg x mod 2 ^ 128.
Proof. exact (fun dbg x y H => Proof.Count.blake2b_counter dbg x H y). Qed.
Print Assumptions C29_blake2b.
Theorem C29_blake2s : forall dbg x y, between Blake2s dbg x -> c_finalize (class Blake2s dbg) x = Ok y ->
  fst (counter Blake2s dbg y) + 2 ^ 64 * snd (counter Blake2s dbg y) = taken Blake2s dbg x mod 2 ^ 64.
Proof. exact (fun dbg x y H => Proof.Count.blake2s_counter dbg x H y). Qed.
Print Assumptions C29_blake2s.
(** the carry: the high word goes from 0 to 1 *)
Example C29_blake2_case :
  (let! y := c_finalize (class Blake2 true) (held 128 [1; 2; 3], (mkU128 (2 ^ 64 - 2) 0, Model.Blake2.iv_b)) in Ok (counter Blake2 true y)) = Ok (1, 1).
Proof. vm_compute. reflexivity. Qed.
