(** C35: the padding is injective, and two messages with the same final chaining value show a collision of the
    compression function. *)
From Coq Require Import String List NArith Arith Lia.
From Verif.Base Require Import Res.
From Verif.Spec Require Import Words Client Merkle Chaining.
From Verif.Spec Require SipHash.
From Verif.Model Require Import Buffer Stream Api Library Chaining.
From Verif.Tests Require Import Kit.
From Verif.Proof Require Collide.
Import ListNotations.
Local Open Scope N_scope.

(** *** The classes that append the length of the message (MD4, MD5, SHA-1, SHA-2, RIPEMD, HAS-160, SM3, Tiger, Whirlpool) *)
Theorem C35_padding : forall (a : alg) B r mk enc m1 m2, padding a = Some (B, r, mk, enc) ->
  8 * N.of_nat (length m1) < 2 ^ counts a -> 8 * N.of_nat (length m2) < 2 ^ counts a ->
  pieces B (pad B r mk enc m1) = pieces B (pad B r mk enc m2) -> m1 = m2.
Proof. exact Proof.Collide.blocks_injective. Qed.
Print Assumptions C35_padding.
(** what the object compresses, whatever the chunks, are these blocks *)
Theorem C35_blocks : forall (a : alg) B r mk enc dbg ds x, padding a = Some (B, r, mk, enc) ->
  Forall span_ok ds -> 8 * N.of_nat (length (concat ds)) < 2 ^ counts a -> digested (class a dbg) ds x ->
  foldM (compression a) (pieces B (pad B r mk enc (concat ds))) (initial a) = Ok (chaining a dbg x).
Proof. exact (fun a B r mk enc dbg ds x E => Proof.Collide.blocks_fed a B r mk enc E dbg ds x). Qed.
Print Assumptions C35_blocks.
Theorem C35_collision : forall (a : alg) B r mk enc dbg ds1 ds2 x1 x2, padding a = Some (B, r, mk, enc) ->
  Forall span_ok ds1 -> Forall span_ok ds2 ->
  8 * N.of_nat (length (concat ds1)) < 2 ^ counts a -> 8 * N.of_nat (length (concat ds2)) < 2 ^ counts a ->
  digested (class a dbg) ds1 x1 -> digested (class a dbg) ds2 x2 ->
  concat ds1 <> concat ds2 -> chaining a dbg x1 = chaining a dbg x2 ->
  collision (compression a) (initial a) (pieces B (pad B r mk enc (concat ds1))) (pieces B (pad B r mk enc (concat ds2))).
Proof. exact (fun a B r mk enc dbg ds1 ds2 x1 x2 E => Proof.Collide.hash_collision a B r mk enc E dbg ds1 ds2 x1 x2). Qed.
Print Assumptions C35_collision.

(** two messages of one block that differ in one byte, or in a trailing zero byte, are padded differently *)
Example C35_padding_case : padding SHA1 = Some (64%nat, 8%nat, 128, be_bytes 8) /\
  pieces 64 (pad 64 8 128 (be_bytes 8) (text "abc")) = [text "abc" ++ [128] ++ repeat 0 59 ++ [24]] /\
  pieces 64 (pad 64 8 128 (be_bytes 8) (text "abc" ++ [128])) = [text "abc" ++ [128; 128] ++ repeat 0 58 ++ [32]].
Proof. vm_compute. auto. Qed.
(** the collision of MD5 found by X. Wang and H. Yu: 128 bytes, taken here in other chunks than there *)
Definition wang1 : list (list N) :=
  [unhex "d131dd02c5e6eec4693d9a0698aff95c2fcab58712467eab4004583eb8fb7f8955ad340609f4b30283e488832571415a";
   unhex "085125e8f7cdc99fd91dbdf280373c5bd8823e3156348f5bae6dacd436c919c6dd53e2b487da03fd02396306d248cda0e99f33420f577ee8ce54b67080a80d1ec69821bcb6a8839396f9652b6ff72a70"].
Definition wang2 : list (list N) :=
  [unhex "d131dd02c5e6eec4693d9a0698aff95c2fcab50712467eab4004583eb8fb7f8955ad340609f4b30283e4888325f1415a085125e8f7cdc99fd91dbd7280373c5bd8823e31";
   unhex "56348f5bae6dacd436c919c6dd53e23487da03fd02396306d248cda0e99f33420f577ee8ce54b67080280d1ec69821bcb6a8839396f965ab6ff72a70"].
Lemma run_both C ds1 ds2 (P : Obj C -> Obj C -> Prop) :
  match foldM (c_add C) ds1 (c_new C), foldM (c_add C) ds2 (c_new C) with
  | Ok y1, Ok y2 => match c_finalize C y1, c_finalize C y2 with Ok x1, Ok x2 => P x1 x2 | _, _ => False end
  | _, _ => False
  end -> exists x1 x2, digested C ds1 x1 /\ digested C ds2 x2 /\ P x1 x2.
Proof.
  intros G. destruct (foldM (c_add C) ds1 (c_new C)) as [y1| |] eqn:E1; try contradiction.
  destruct (foldM (c_add C) ds2 (c_new C)) as [y2| |] eqn:E2; try contradiction.
  destruct (c_finalize C y1) as [x1| |] eqn:F1; try contradiction. destruct (c_finalize C y2) as [x2| |] eqn:F2; try contradiction.
  exists x1, x2. split; [exists y1; auto|]. split; [exists y2; auto|exact G].
Qed.
Example C35_collision_case : exists x1 x2,
  digested (class MD5 false) wang1 x1 /\ digested (class MD5 false) wang2 x2 /\ concat wang1 <> concat wang2 /\
  chaining MD5 false x1 = chaining MD5 false x2 /\
  collision (compression MD5) (initial MD5) (pieces 64 (pad 64 8 128 (le_bytes 8) (concat wang1)))
    (pieces 64 (pad 64 8 128 (le_bytes 8) (concat wang2))).
Proof.
  destruct (run_both (class MD5 false) wang1 wang2 (fun x1 x2 => chaining MD5 false x1 = chaining MD5 false x2))
    as (x1 & x2 & D1 & D2 & G); [vm_compute; reflexivity|].
  assert (concat wang1 <> concat wang2) as Hne by (vm_compute; discriminate).
  assert (Forall span_ok wang1) as S1 by spans. assert (Forall span_ok wang2) as S2 by spans.
  exists x1, x2. split; [exact D1|]. split; [exact D2|]. split; [exact Hne|]. split; [exact G|].
  exact (C35_collision MD5 64 8 128 (le_bytes 8) false wang1 wang2 x1 x2 eq_refl S1 S2 eq_refl eq_refl D1 D2 Hne G).
Qed.

(** *** BLAKE: the compression function takes a block and a counter *)
Theorem C35_blake_padding : forall (a : alg) nb lastbit cc f iv m1 m2, blake a = Some (nb, lastbit, cc, f, iv) ->
  8 * N.of_nat (length m1) < 2 ^ (16 * N.of_nat nb) -> 8 * N.of_nat (length m2) < 2 ^ (16 * N.of_nat nb) ->
  blake_inputs nb lastbit cc m1 = blake_inputs nb lastbit cc m2 -> m1 = m2.
Proof. exact (fun a nb lastbit cc f iv m1 m2 E => Proof.Collide.blake_inputs_injective a nb lastbit cc f iv E m1 m2). Qed.
Print Assumptions C35_blake_padding.
Theorem C35_blake_blocks : forall (a : alg) nb lastbit cc f iv dbg ds x, blake a = Some (nb, lastbit, cc, f, iv) ->
  Forall span_ok ds -> digested (class a dbg) ds x ->
  foldM f (blake_inputs nb lastbit cc (concat ds)) iv = Ok (chaining a dbg x).
Proof. exact (fun a nb lastbit cc f iv dbg ds x E => Proof.Collide.blake_fed a nb lastbit cc f iv E dbg ds x). Qed.
Print Assumptions C35_blake_blocks.
Theorem C35_blake_collision : forall (a : alg) nb lastbit cc f iv dbg ds1 ds2 x1 x2, blake a = Some (nb, lastbit, cc, f, iv) ->
  Forall span_ok ds1 -> Forall span_ok ds2 ->
  8 * N.of_nat (length (concat ds1)) < 2 ^ (16 * N.of_nat nb) -> 8 * N.of_nat (length (concat ds2)) < 2 ^ (16 * N.of_nat nb) ->
  digested (class a dbg) ds1 x1 -> digested (class a dbg) ds2 x2 ->
  concat ds1 <> concat ds2 -> chaining a dbg x1 = chaining a dbg x2 ->
  collision f iv (blake_inputs nb lastbit cc (concat ds1)) (blake_inputs nb lastbit cc (concat ds2)).
Proof. exact (fun a nb lastbit cc f iv dbg ds1 ds2 x1 x2 E => Proof.Collide.blake_hash_collision a nb lastbit cc f iv E dbg ds1 ds2 x1 x2). Qed.
Print Assumptions C35_blake_collision.
Example C35_blake_case : exists f iv, blake Blake1_256 = Some (4%nat, true, Spec.Blake.counter_coded 4, f, iv) /\
  blake_inputs 4 true (Spec.Blake.counter_coded 4) (counting 100) =
  [(counting 64, 512); (skipn 64 (counting 100) ++ [128] ++ repeat 0 18 ++ [1] ++ repeat 0 6 ++ [3; 32], 800)].
Proof. eexists. eexists. split; [reflexivity|]. vm_compute. reflexivity. Qed.

(** *** BLAKE2: a block, the number of bytes so far and a flag for the last block; messages of any length.
    (The counter is a number here.  The code keeps it modulo 2^128 resp. 2^64: messages of that length and more are
    not in the domain of BLAKE2.) *)
Theorem C35_blake2_padding : forall (a : alg) nb f iv m1 m2, blake2 a = Some (nb, f, iv) ->
  blake2_inputs nb m1 = blake2_inputs nb m2 -> m1 = m2.
Proof. exact (fun a nb f iv m1 m2 E => Proof.Collide.blake2_inputs_injective a nb f iv E m1 m2). Qed.
Print Assumptions C35_blake2_padding.
Theorem C35_blake2_blocks : forall (a : alg) nb f iv dbg ds x, blake2 a = Some (nb, f, iv) ->
  Forall span_ok ds -> digested (class a dbg) ds x -> foldM f (blake2_inputs nb (concat ds)) iv = Ok (chaining a dbg x).
Proof. exact (fun a nb f iv dbg ds x E => Proof.Collide.blake2_fed a nb f iv E dbg ds x). Qed.
Print Assumptions C35_blake2_blocks.
Theorem C35_blake2_collision : forall (a : alg) nb f iv dbg ds1 ds2 x1 x2, blake2 a = Some (nb, f, iv) ->
  Forall span_ok ds1 -> Forall span_ok ds2 -> digested (class a dbg) ds1 x1 -> digested (class a dbg) ds2 x2 ->
  concat ds1 <> concat ds2 -> chaining a dbg x1 = chaining a dbg x2 ->
  collision f iv (blake2_inputs nb (concat ds1)) (blake2_inputs nb (concat ds2)).
Proof. exact (fun a nb f iv dbg ds1 ds2 x1 x2 E => Proof.Collide.blake2_hash_collision a nb f iv E dbg ds1 ds2 x1 x2). Qed.
Print Assumptions C35_blake2_collision.
(** a message and the same message with a zero byte more fill the same blocks, but with another counter *)
Example C35_blake2_case : exists f iv, blake2 Blake2s = Some (4%nat, f, iv) /\
  blake2_inputs 4 (counting 70) = [(counting 64, 64, false); (skipn 64 (counting 70) ++ repeat 0 58, 70, true)] /\
  blake2_inputs 4 (counting 70 ++ [0]) = [(counting 64, 64, false); (skipn 64 (counting 70) ++ repeat 0 58, 71, true)].
Proof. eexists. eexists. split; [reflexivity|]. vm_compute. auto. Qed.

(** *** MD2 has no length field: equal final values are a collision, or the computation came back to the initial value *)
Theorem C35_md2_padding : forall m1 m2, md2_inputs m1 = md2_inputs m2 -> m1 = m2.
Proof. exact Proof.Collide.md2_inputs_injective. Qed.
Print Assumptions C35_md2_padding.
Theorem C35_md2_blocks : forall dbg ds x, Forall span_ok ds -> digested (class MD2 dbg) ds x ->
  foldM md2_f (md2_inputs (concat ds)) (repeat 0 16) = Ok (chaining MD2 dbg x).
Proof. exact Proof.Collide.md2_fed. Qed.
Print Assumptions C35_md2_blocks.
Theorem C35_md2_collision : forall dbg ds1 ds2 x1 x2,
  Forall span_ok ds1 -> Forall span_ok ds2 -> digested (class MD2 dbg) ds1 x1 -> digested (class MD2 dbg) ds2 x2 ->
  concat ds1 <> concat ds2 -> chaining MD2 dbg x1 = chaining MD2 dbg x2 ->
  let p := md2_inputs (concat ds1) in let q := md2_inputs (concat ds2) in
  collision md2_f (repeat 0 16) p q \/ returns md2_f (repeat 0 16) p \/ returns md2_f (repeat 0 16) q.
Proof. exact Proof.Collide.md2_hash_collision. Qed.
Print Assumptions C35_md2_collision.
Example C35_md2_case : map (firstn 16) (firstn 2 (md2_inputs (counting 20))) =
  [counting 16; [16; 17; 18; 19; 12; 12; 12; 12; 12; 12; 12; 12; 12; 12; 12; 12]] /\ length (md2_inputs (counting 20)) = 3%nat.
Proof. vm_compute. auto. Qed.

(** *** SipHash has one byte of length, which suffices for messages of every length *)
Theorem C35_siphash_padding : forall m1 m2, pieces 8 (Spec.SipHash.padded m1) = pieces 8 (Spec.SipHash.padded m2) -> m1 = m2.
Proof. exact Proof.Collide.siphash_blocks_injective. Qed.
Print Assumptions C35_siphash_padding.
(** a message of 257 bytes has the length byte of one of 1 byte *)
Example C35_siphash_case : pieces 8 (Spec.SipHash.padded [7]) = [[7; 0; 0; 0; 0; 0; 0; 1]] /\
  last (pieces 8 (Spec.SipHash.padded (repeat 7 257))) [] = [7; 0; 0; 0; 0; 0; 0; 1].
Proof. vm_compute. auto. Qed.
