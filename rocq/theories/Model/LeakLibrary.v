(** The hash classes with what an observer of array indices and branches sees of each member call.  The functions are
    those of Model/Leak/, put together as the classes of Model/Library.v are.  Not recorded: loops with constant bounds
    that Model/ has as plain functions (clearing a buffer, setting initial values), and the carry of a length counter,
    which depends on lengths only. *)
From Coq Require Import List NArith Arith Bool.
From Verif.Base Require Res.
From Verif.Base Require Import Leak.
From Verif.Spec Require Import Client.
From Verif.Model Require Import Buffer Stream Counter Api Library.
From Verif.Model Require Blake1 Blake2 Has160 Keccak Md2 Md4 Md5 Ripemd Sha1 Sha2 SipHash Sm3 Tiger Whirlpool.
From Verif.Model.Gen Require Blake1Tables Blake1_224Calls Blake1_256Calls Blake1_384Calls Blake1_512Calls Blake2Calls Blake2sCalls.
From Verif.Model.Leak Require LkBuffer LkStream LkBlake1 LkBlake2 LkCrc32 LkFnv LkHas160 LkKeccak LkMd2 LkMd4 LkMd5 LkRipemd
  LkSha1 LkSha2 LkSipHash LkSm3 LkTiger LkWhirlpool.
Import ListNotations.
Local Open Scope N_scope.

Record Leaky (O : Type) := mkLeaky {
  l_add : list N -> O -> res O;
  l_finalize : O -> res O;
  l_array : O -> res (list N)
}.
Arguments l_add {O}. Arguments l_finalize {O}. Arguments l_array {O}. Arguments mkLeaky {O}.

(** as md_class, md128_class, stream_class in Model/Api.v *)
Definition md_leaky {H} (B : nat) (dbg : bool) (padbyte : N) (write_len : N -> Buffer -> res Buffer)
    (compress : list N -> H -> res H) (arr : H -> res (list N)) : Leaky (Buffer * MD H) :=
  let impl := LkStream.md_impl B dbg compress in
  mkLeaky (LkStream.addData (MD H) B (2 * B) dbg impl) (LkStream.md_finalize B dbg padbyte write_len impl)
    (fun o => arr (md_h (snd o))).
Definition md128_leaky {H} (B reserve : nat) (dbg : bool) (compress : list N -> H -> res H) (arr : H -> res (list N))
    : Leaky (Buffer * MD128 H) :=
  let impl := LkStream.md128_impl B dbg compress in
  mkLeaky (LkStream.addData (MD128 H) B (2 * B) dbg impl) (LkStream.md128_finalize B reserve dbg impl)
    (fun o => arr (md8_h (snd o))).
Definition stream_leaky {St} (B cap : nat) (dbg : bool) (impl : list N -> St -> res St)
    (finalize : Buffer * St -> res (Buffer * St)) (arr : St -> res (list N)) : Leaky (Buffer * St) :=
  mkLeaky (LkStream.addData St B cap dbg impl) finalize (fun o => arr (snd o)).

(** cls of Model/Blake1.v, Blake2.v, Keccak.v *)
Definition blake1 (w : N) (nb : nat) (r1 r2 r3 r4 : N) (cTable : list N) (F : Type) (calls : list (Call.call F)) (K : Counter)
    (narrow lastbit dbg : bool) (size n : nat) : Leaky (Buffer * (ctr K * list N)) :=
  stream_leaky (16 * nb) (2 * (16 * nb)) dbg (LkBlake1.impl w nb r1 r2 r3 r4 cTable F calls K narrow dbg 0)
    (LkBlake1.finalize w nb r1 r2 r3 r4 cTable F calls K narrow lastbit dbg) (LkBlake1.toArray nb K size n).
Definition blake2 (w : N) (nb : nat) (r1 r2 r3 r4 : N) (IV : list N) (F : Type) (calls : list (Call.call F)) (K : Counter)
    (dbg : bool) (size : nat) : Leaky (Buffer * (ctr K * list N)) :=
  mkLeaky (LkBlake2.addData _ (16 * nb) dbg (LkBlake2.impl w nb r1 r2 r3 r4 IV F calls K dbg false 0))
    (LkBlake2.finalize w nb r1 r2 r3 r4 IV F calls K dbg) (fun o => LkBlake2.toArray nb K size (snd o)).
Definition keccak (R : nat) (P : N) (dbg : bool) : Leaky (Buffer * Keccak.St) :=
  mkLeaky (LkStream.addData Keccak.St R R dbg (LkKeccak.impl R dbg)) (LkKeccak.finalize R P dbg) LkKeccak.toVector.

Definition md5ish (dbg : bool) := md_leaky (H := list N) 64 dbg 128 LkStream.write_len_le.
Definition sha1ish (dbg : bool) := md_leaky (H := list N) 64 dbg 128 LkStream.write_len_be.
Definition sha512ish (dbg : bool) := md128_leaky 128 16 dbg LkSha2.compress64.
Definition tiger (V size : nat) (dbg : bool) :=
  md_leaky 64 dbg (if Nat.eqb V 1 then 1 else 128) LkStream.write_len_le LkTiger.compress (LkTiger.toArray size).
Definition fnv (size variant : nat) : Leaky N :=
  mkLeaky (LkFnv.addDataImpl size variant) LkFnv.finalize (LkFnv.toArray size).

Definition leaky (a : alg) (dbg : bool) : Leaky (Obj (class a dbg)) :=
  match a return Leaky (Obj (class a dbg)) with
  | Blake1_224 => blake1 32 4 16 12 8 7 Blake1Tables.cTable32 _ Blake1_224Calls.calls ctr64 true false dbg 28 7
  | Blake1_256 => blake1 32 4 16 12 8 7 Blake1Tables.cTable32 _ Blake1_256Calls.calls ctr64 false true dbg 32 8
  | Blake1_384 => blake1 64 8 32 25 16 11 Blake1Tables.cTable64 _ Blake1_384Calls.calls ctr128 false false dbg 48 6
  | Blake1_512 => blake1 64 8 32 25 16 11 Blake1Tables.cTable64 _ Blake1_512Calls.calls ctr128 false true dbg 64 8
  | Library.Blake2 => blake2 64 8 32 24 16 63 Blake2.iv_b _ Blake2Calls.calls ctr128 dbg 64
  | Blake2s => blake2 32 4 16 12 8 7 Blake2.iv_s _ Blake2sCalls.calls ctr64 dbg 32
  | CRC_32 => mkLeaky LkCrc32.addDataImpl LkCrc32.finalize LkCrc32.toArray
  | FNV32_0 => fnv 4 0
  | FNV32_1 => fnv 4 1
  | FNV32_1a => fnv 4 2
  | FNV64_0 => fnv 8 0
  | FNV64_1 => fnv 8 1
  | FNV64_1a => fnv 8 2
  | HAS_160 => md5ish dbg LkHas160.compress LkHas160.toArray
  | MD2 => stream_leaky 16 32 dbg LkMd2.addDataImpl (LkMd2.finalize dbg) LkMd2.toArray
  | MD4 => md5ish dbg LkMd4.compress LkMd4.toArray
  | MD5 => md5ish dbg LkMd5.compress LkMd5.toArray
  | RIPEMD_128 => md5ish dbg LkRipemd.compress128 (LkRipemd.toArray 16)
  | RIPEMD_160 => md5ish dbg LkRipemd.compress160 (LkRipemd.toArray 20)
  | RIPEMD_256 => md5ish dbg LkRipemd.compress256 (LkRipemd.toArray 32)
  | RIPEMD_320 => md5ish dbg LkRipemd.compress320 (LkRipemd.toArray 40)
  | SHA1 => sha1ish dbg LkSha1.compress LkSha1.toArray
  | SHA2_224 => sha1ish dbg LkSha2.compress32 (LkSha2.toArray 4 28 7)
  | SHA2_256 => sha1ish dbg LkSha2.compress32 (LkSha2.toArray 4 32 8)
  | SHA2_384 => sha512ish dbg (LkSha2.toArray 8 48 6)
  | SHA2_512 => sha512ish dbg (LkSha2.toArray 8 64 8)
  | SHA2_512_224 => sha512ish dbg LkSha2.toArray_512_224
  | SHA2_512_256 => sha512ish dbg (LkSha2.toArray 8 32 4)
  | SHA3_224 => keccak (1152 / 8) 0x06 dbg
  | SHA3_256 => keccak (1088 / 8) 0x06 dbg
  | SHA3_384 => keccak (832 / 8) 0x06 dbg
  | SHA3_512 => keccak (576 / 8) 0x06 dbg
  | SHAKE_128 _ => keccak (1344 / 8) 0x1F dbg
  | SHAKE_256 _ => keccak (1088 / 8) 0x1F dbg
  | Library.SipHash k0 k1 =>
      mkLeaky (LkStream.addData _ 8 16 dbg (LkSipHash.addDataImpl 2 dbg)) (LkSipHash.finalize 2 4 dbg) LkSipHash.toArray
  | SM3 => sha1ish dbg LkSm3.compress LkSm3.toArray
  | Tiger1_128 => tiger 1 16 dbg
  | Tiger1_160 => tiger 1 20 dbg
  | Tiger1_192 => tiger 1 24 dbg
  | Tiger2_128 => tiger 2 16 dbg
  | Tiger2_160 => tiger 2 20 dbg
  | Tiger2_192 => tiger 2 24 dbg
  | Library.Whirlpool => md128_leaky 64 32 dbg LkWhirlpool.compress LkWhirlpool.toArray
  end.

(** client programs, as exec_op and exec in Model/Api.v *)
Section Run.
  Variable C : HashClass.
  Variable L : Leaky (Obj C).

  Definition run_op (o : op) (x : Obj C) : res (Obj C * option obs) :=
    match o with
    | AddData d => let! y := l_add L d x in Ok (y, None)
    | Finalize => let! y := l_finalize L x in Ok (y, None)
    | Reset => Ok (c_reset C x, None)
    | ToArray => let! d := l_array L x in Ok (x, Some (OBytes d))
    | ToVector => let! d := l_array L x in Ok (x, Some (OBytes d))
    | ToString => let! d := l_array L x in let! s := LkStream.to_string d in Ok (x, Some (OChars s))
    | ToUint n => let! d := l_array L x in let! v := LkStream.to_uint n d in Ok (x, Some (ONum v))
    | StdHash => let! d := l_array L x in let! v := LkStream.std_hash d in Ok (x, Some (ONum v))
    end.

  Fixpoint run (p : list cmd) (s : store C) : res (list obs * store C) :=
    match p with
    | [] => Ok ([], s)
    | On i o :: rest =>
        let! r := run_op o (s i) in
        let! t := run rest (put C s i (fst r)) in
        Ok (match snd r with Some w => w :: fst t | None => fst t end, snd t)
    | CopyTo i j :: rest => run rest (put C s i (s j))
    end.
End Run.

(** the program with all objects new *)
Definition observed (a : alg) (dbg : bool) (p : list cmd) : res (list obs * store (class a dbg)) :=
  run (class a dbg) (leaky a dbg) p (fun _ => c_new (class a dbg)).

(** operator==, the loop of Model/Library.v: the branch of the loop and the branch of the comparison      sha1.h:231-236 *)
Fixpoint eq_loop (n i : nat) (l r : list N) : res bool :=
  match n with
  | O => tell (Branch false) (Ok true)
  | S k => tell (Branch true) (
      let! a := aget l i in
      let! b := aget r i in
      if! a =? b then eq_loop k (S i) l r else Ok false)
  end.

(** the table-driven classes: crc_32.h:851-880, md2.h:416-438, tiger.h:625-631, whirlpool.h:825-835 *)
Definition tabled (a : alg) : bool :=
  match a with
  | CRC_32 | MD2 | Tiger1_128 | Tiger1_160 | Tiger1_192 | Tiger2_128 | Tiger2_160 | Tiger2_192 | Library.Whirlpool => true
  | _ => false
  end.
