(** The other hash objects in any order of calls: CRC-32, FNV, MD2, SipHash, BLAKE, BLAKE2.

    Such an object holds a register and the bytes that wait for their block to become complete.  finalize() lets the waiting bytes go into
    the register in its own way; what is shown, at any time, is made from the register. *)
From Coq Require Import List NArith Arith Bool.
From Verif.Spec Require Import Words Client Merkle Ledger.
From Verif.Spec Require Crc32 Fnv Md2 SipHash Blake Blake2 Sha2.
Import ListNotations.

(** ** registers fed with blocks *)
Record desk (Reg : Type) := mkDesk { waiting : list N; register : Reg }.
Arguments mkDesk {Reg}. Arguments waiting {Reg}. Arguments register {Reg}.

Section Blocks.
  Context {Reg : Type}.
  Variables (B : nat) (start : Reg) (eat : Reg -> list N -> Reg) (close : Reg -> list N -> Reg) (shown : Reg -> list N).

  (** the first [n] bytes go into the register, the others wait *)
  Definition taken (n : nat) (x : list N) (r : Reg) : desk Reg := mkDesk (skipn n x) (fold_left eat (pieces B (firstn n x)) r).
  (** all complete blocks *)
  Definition eager (d : list N) (o : desk Reg) : desk Reg :=
    let x := waiting o ++ d in taken (length x / B * B) x (register o).
  (** all complete blocks, but the last block waits even if it is complete *)
  Definition lazy (d : list N) (o : desk Reg) : desk Reg :=
    let x := waiting o ++ d in taken ((length x - 1) / B * B) x (register o).

  Definition desk_kind (add : list N -> desk Reg -> desk Reg) : kind :=
    mkKind (desk Reg) (mkDesk [] start) add (fun o => mkDesk [] (close (register o) (waiting o))) (fun _ => mkDesk [] start)
      (fun o => shown (register o)).
End Blocks.

Local Open Scope N_scope.

(** ** MD2: the state and the checksum so far *)
Definition md2_eat (r : list N * list N) (b : list N) : list N * list N :=
  (Md2.absorb_block (fst r) b, Md2.checksum_block (snd r) b).
Definition md2_close (r : list N * list N) (w : list N) : list N * list N :=
  let r := md2_eat r (Md2.pad w) in md2_eat r (snd r).
Definition md2_kind : kind :=
  desk_kind (repeat 0 48, repeat 0 16) md2_close (fun r => firstn 16 (fst r)) (eager 16 md2_eat).

(** ** SipHash-c-d: the four words, and the bytes so far modulo 256; finalize() leaves its work in both *)
Definition sip_eat (c : nat) (r : SipHash.state * N) (b : list N) : SipHash.state * N :=
  (SipHash.absorb c (fst r) (le_value b), (snd r + 8) mod 256).
Definition sip_close (c d : nat) (r : SipHash.state * N) (w : list N) : SipHash.state * N :=
  let n := (snd r + N.of_nat (length w)) mod 256 in
  let '((v0, v1, v2, v3), k) := sip_eat c (fst r, n) (w ++ repeat 0 (7 - length w)%nat ++ [n]) in
  (SipHash.rounds d (v0, v1, N.lxor v2 255, v3), k).
Definition sip_shown (r : SipHash.state * N) : list N :=
  let '((v0, v1, v2, v3), _) := r in be_bytes 8 (N.lxor v0 (N.lxor v1 (N.lxor v2 v3))).
Definition sip_kind (c d : nat) (k0 k1 : N) : kind :=
  desk_kind (SipHash.initial k0 k1, 0) (sip_close c d) sip_shown (eager 8 (sip_eat c)).

(** ** BLAKE: the chaining value and the number of bits so far *)
Section Blake.
  Variables (w : N) (nb : nat) (r1 r2 r3 r4 : N) (C : list N) (nrounds : nat) (iv : list N) (size : nat).
  (** the bit before the length field; whether a number of bits is taken modulo 2^32 on its way *)
  Variables (lastbit narrow : bool).
  Let B := (16 * nb)%nat.
  Let wrap (n : N) : N := n mod 2 ^ (2 * w).
  Let F := Blake.compress w nb r1 r2 r3 r4 C nrounds.

  Definition blake_eat (r : list N * N) (b : list N) : list N * N :=
    let t := wrap (snd r + 8 * N.of_nat B) in (F (fst r) b t, t).
  (** the last block, or the last two: the second starts in the marks, since at most 2 * nb bytes and the first mark are missing *)
  Definition blake_close (r : list N * N) (x : list N) : list N * N :=
    let field := be_bytes (2 * nb) (wrap (snd r + 8 * N.of_nat (length x))) in
    let y := x ++ Blake.marks lastbit (zeros B (2 * nb) (length x)) ++ field in
    if (length x <? 14 * nb)%nat then
      let t := wrap (snd r + 8 * N.of_nat (length x)) in
      (F (fst r) y (if (length x =? 0)%nat then 0 else t), t)
    else
      (* the number of bits of the message in a block comes out negative *)
      let u := 2 ^ (if narrow then 32 else 64) - 8 * N.of_nat (B - length x) in
      let t1 := wrap (snd r + u) in
      let t2 := wrap (t1 + u) in
      let used t := if narrow then t else 0 in
      (F (F (fst r) (firstn B y) (used t1)) (skipn B y) (used t2), t2).
  Definition blake_kind : kind :=
    desk_kind (iv, 0) blake_close (fun r => firstn size (flat_map (be_bytes nb) (fst r))) (eager B blake_eat).
End Blake.
Definition blake224_kind := blake_kind 32 4 16 12 8 7 Blake.C256 14 Sha2.IV224 28 false true.
Definition blake256_kind := blake_kind 32 4 16 12 8 7 Blake.C256 14 Sha2.IV256 32 true false.
Definition blake384_kind := blake_kind 64 8 32 25 16 11 Blake.C512 16 Sha2.IV384 48 false false.
Definition blake512_kind := blake_kind 64 8 32 25 16 11 Blake.C512 16 Sha2.IV512 64 true false.

(** ** BLAKE2: the chaining value and the number of bytes so far; a block waits until it is known whether it is the last *)
Section Blake2.
  Variables (w : N) (nb : nat) (r1 r2 r3 r4 : N) (nrounds : nat) (IV : list N) (size : nat).
  Let B := (16 * nb)%nat.
  Let wrap (n : N) : N := n mod 2 ^ (2 * w).
  Let F := Blake2.compress w nb r1 r2 r3 r4 nrounds IV.

  Definition blake2_eat (r : list N * N) (b : list N) : list N * N :=
    let t := wrap (snd r + N.of_nat B) in (F (fst r) b t false, t).
  Definition blake2_close (r : list N * N) (x : list N) : list N * N :=
    let t := wrap (snd r + N.of_nat (length x)) in (F (fst r) (x ++ repeat 0 (B - length x)%nat) t true, t).
  Definition blake2_kind : kind :=
    desk_kind (Blake2.h0 IV (N.of_nat size), 0) blake2_close (fun r => firstn size (flat_map (le_bytes nb) (fst r))) (lazy B blake2_eat).
End Blake2.
Definition blake2b_kind := blake2_kind 64 8 32 24 16 63 12 Sha2.IV512 64.
Definition blake2s_kind := blake2_kind 32 4 16 12 8 7 10 Sha2.IV256 32.

(** ** CRC-32: a shift register; finalize() complements it *)
Definition crc_kind : kind :=
  mkKind N (2 ^ 32 - 1) (fun d s => Crc32.remainder s (Crc32.bits d)) (compl 32) (fun _ => 2 ^ 32 - 1) (be_bytes 4).

(** ** FNV: finalize() does nothing; the reset() of FNV-0 does nothing either *)
Definition fnv_kind (w : N) (size : nat) (start : N) (add : N -> N -> list N -> N) (resets : bool) : kind :=
  mkKind N start (fun d h => add w h d) (fun h => h) (fun h => if resets then start else h) (be_bytes size).
Definition fnv32_0 := fnv_kind 32 4 0 Fnv.multiply_first false.
Definition fnv32_1 := fnv_kind 32 4 (Fnv.offset_basis 32) Fnv.multiply_first true.
Definition fnv32_1a := fnv_kind 32 4 (Fnv.offset_basis 32) Fnv.add_first true.
Definition fnv64_0 := fnv_kind 64 8 0 Fnv.multiply_first false.
Definition fnv64_1 := fnv_kind 64 8 (Fnv.offset_basis 64) Fnv.multiply_first true.
Definition fnv64_1a := fnv_kind 64 8 (Fnv.offset_basis 64) Fnv.add_first true.
