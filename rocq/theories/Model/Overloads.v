(** Model of the overloads of addData down to the reads of the caller's memory. *)
From Coq Require Import List NArith ZArith Arith Bool.
From Verif.Base Require Import Res CWord.
From Verif.Spec Require Import Memory.
From Verif.Model Require Import Buffer Stream Api ObjApi Library Counter.
From Verif.Model.Gen Require Blake1Tables Blake1_224Calls Blake1_256Calls Blake1_384Calls Blake1_512Calls Blake2Calls Blake2sCalls.
From Verif.Model Require Blake1 Blake2 Crc32 CShake Fnv Has160 Keccak Md2 Md4 Md5 Ripemd Sha1 Sha2 SipHash Sm3 Tiger TupleHash Whirlpool.
Import ListNotations.
Local Open Scope N_scope.

(** Span<const Byte>: data() and size()      gsl/span:434-470 *)
Record span := mkSpan { sp_data : N; sp_size : N }.

(** *ptr *)
Definition load (mem : memory) (a : N) : res N := match mem a with Some b => Ok b | None => Ub OobRead end.
(** ptr[0], ..., ptr[n - 1] *)
Definition loads (mem : memory) (p : N) (n : nat) : res (list N) :=
  mapM (fun i => load mem (p + N.of_nat i)) (seq 0 n).
Definition whole (mem : memory) (sp : span) : res (list N) := loads mem (sp_data sp) (N.to_nat (sp_size sp)).

(** first(count), subspan(offset)      gsl/span:619-635, 755-766 *)
Definition sp_first (n : N) (sp : span) : res span :=
  if n <=? sp_size sp then Ok (mkSpan (sp_data sp) n) else Ub SpanPre.
Definition sp_subspan (n : N) (sp : span) : res span :=
  if n <=? sp_size sp then Ok (mkSpan (sp_data sp + n) (sp_size sp - n)) else Ub SpanPre.

(** for (InputIt iter = first; iter != last; ++iter) this->fill( *iter)      sha1.h:97-104, 130-137 *)
Definition push_range (dbg : bool) (mem : memory) (p : N) (n : nat) (b : Buffer) : res Buffer :=
  for_ 0 n (fun i b => let! v := load mem (p + N.of_nat i) in buf_fill dbg v 1 b) b.

(** ** addData(Span<const Byte>) *)

(** the definitions of Stream.v and Blake2.v, of the same lines, on spans of memory; addDataImpl reads every byte of its span *)
Section Stream.
  Variable St : Type.
  Variables (B cap : nat) (dbg : bool).
  Variable impl : list N -> St -> res St.
  Variable mem : memory.

  (** sha1.h:402-416 *)
  Definition stream_tail (data : span) (buf : Buffer) (s : St) : res (Buffer * St) :=
    let dataSize := sp_size data in
    if dataSize <? N.of_nat B then
      let! buf := push_range dbg mem (sp_data data) (N.to_nat dataSize) (buf_new cap) in Ok (buf, s)
    else
      let len := usub 64 dataSize (dataSize mod N.of_nat B) in
      let! d := sp_first len data in
      let! d := whole mem d in
      let! s := impl d s in
      if len <? dataSize then
        let! buf := push_range dbg mem (sp_data data + len) (N.to_nat (dataSize - len)) (buf_new cap) in Ok (buf, s)
      else Ok (buf, s).

  (** sha1.h:385-417 *)
  Definition stream_add (inData : span) (o : Buffer * St) : res (Buffer * St) :=
    let (buf, s) := o in
    if negb (buf_empty buf) then
      let len := if (buf_size buf <=? B)%nat then N.min (N.of_nat (B - buf_size buf)) (sp_size inData) else sp_size inData in
      let! buf := push_range dbg mem (sp_data inData) (N.to_nat len) buf in
      if (buf_size buf <? B)%nat then Ok (buf, s)
      else
        let! s := impl (buf_span buf) s in
        let buf := buf_clear buf in
        let! data := sp_subspan len inData in
        stream_tail data buf s
    else stream_tail inData buf s.

  (** blake2.h:463-473 *)
  Definition blake2_tail (data : span) (s : St) : res (Buffer * St) :=
    let dataSize := sp_size data in
    let remainder := if negb (dataSize mod N.of_nat B =? 0) then dataSize mod N.of_nat B else N.of_nat B in
    let len := usub 64 dataSize remainder in
    let! d := sp_first len data in
    let! d := whole mem d in
    let! s := impl d s in
    let! buf := push_range dbg mem (sp_data data + (dataSize - remainder)) (N.to_nat remainder) (buf_new B) in
    Ok (buf, s).

  (** blake2.h:441-474, blake2s.h:375-408 *)
  Fixpoint blake2_rec (fuel : nat) (inData : span) (o : Buffer * St) : res (Buffer * St) :=
    match fuel with
    | O => Ub OutOfFuel
    | Datatypes.S fuel =>
        let (buf, s) := o in
        if sp_size inData =? 0 then Ok o
        else if (buf_size buf =? B)%nat then
          let! s := impl (buf_span buf) s in
          blake2_tail inData s
        else if negb (buf_empty buf) then
          let len := N.min (N.of_nat (B - buf_size buf)) (sp_size inData) in
          let! buf := push_range dbg mem (sp_data inData) (N.to_nat len) buf in
          let! data := sp_subspan len inData in
          blake2_rec fuel data (buf, s)
        else blake2_tail inData s
    end.

  (** addDataImpl(inData)      crc_32.h:794-798, fnv.h:237-242 *)
  Definition whole_add (inData : span) (s : St) : res St :=
    let! d := whole mem inData in impl d s.
End Stream.

Definition stream_span St B cap dbg impl (mem : memory) (sp : span) (o : Buffer * St) := stream_add St B cap dbg impl mem sp o.
Definition blake2_span St B dbg impl (mem : memory) (sp : span) (o : Buffer * St) := blake2_rec St B dbg impl mem 3 sp o.
Definition whole_span St impl (mem : memory) (sp : span) (o : St) := whole_add St impl mem sp o.

(** by class name, with BLOCK_SIZE and the capacity of m_buffer *)
Definition add_span (a : alg) (dbg : bool) : memory -> span -> Obj (class a dbg) -> res (Obj (class a dbg)) :=
  match a return memory -> span -> Obj (class a dbg) -> res (Obj (class a dbg)) with
  | Blake1_224 => stream_span _ 64 128 dbg (Model.Blake1.impl 32 4 16 12 8 7 Blake1Tables.cTable32 _ Blake1_224Calls.calls ctr64 true dbg 0)
  | Blake1_256 => stream_span _ 64 128 dbg (Model.Blake1.impl 32 4 16 12 8 7 Blake1Tables.cTable32 _ Blake1_256Calls.calls ctr64 false dbg 0)
  | Blake1_384 => stream_span _ 128 256 dbg (Model.Blake1.impl 64 8 32 25 16 11 Blake1Tables.cTable64 _ Blake1_384Calls.calls ctr128 false dbg 0)
  | Blake1_512 => stream_span _ 128 256 dbg (Model.Blake1.impl 64 8 32 25 16 11 Blake1Tables.cTable64 _ Blake1_512Calls.calls ctr128 false dbg 0)
  | Blake2 => blake2_span _ 128 dbg (Model.Blake2.impl 64 8 32 24 16 63 Model.Blake2.iv_b _ Blake2Calls.calls ctr128 dbg false 0)
  | Blake2s => blake2_span _ 64 dbg (Model.Blake2.impl 32 4 16 12 8 7 Model.Blake2.iv_s _ Blake2sCalls.calls ctr64 dbg false 0)
  | CRC_32 => whole_span _ Model.Crc32.addDataImpl
  | FNV32_0 => whole_span _ (Model.Fnv.addDataImpl 4 0)
  | FNV32_1 => whole_span _ (Model.Fnv.addDataImpl 4 1)
  | FNV32_1a => whole_span _ (Model.Fnv.addDataImpl 4 2)
  | FNV64_0 => whole_span _ (Model.Fnv.addDataImpl 8 0)
  | FNV64_1 => whole_span _ (Model.Fnv.addDataImpl 8 1)
  | FNV64_1a => whole_span _ (Model.Fnv.addDataImpl 8 2)
  | MD2 => stream_span _ 16 32 dbg Model.Md2.addDataImpl
  | HAS_160 => stream_span _ 64 128 dbg (md_impl 64 dbg Model.Has160.compress)
  | MD4 => stream_span _ 64 128 dbg (md_impl 64 dbg Model.Md4.compress)
  | MD5 => stream_span _ 64 128 dbg (md_impl 64 dbg Model.Md5.compress)
  | RIPEMD_128 => stream_span _ 64 128 dbg (md_impl 64 dbg Model.Ripemd.compress128)
  | RIPEMD_160 => stream_span _ 64 128 dbg (md_impl 64 dbg Model.Ripemd.compress160)
  | RIPEMD_256 => stream_span _ 64 128 dbg (md_impl 64 dbg Model.Ripemd.compress256)
  | RIPEMD_320 => stream_span _ 64 128 dbg (md_impl 64 dbg Model.Ripemd.compress320)
  | SHA1 => stream_span _ 64 128 dbg (md_impl 64 dbg Model.Sha1.compress)
  | SHA2_224 => stream_span _ 64 128 dbg (md_impl 64 dbg Model.Sha2.compress32)
  | SHA2_256 => stream_span _ 64 128 dbg (md_impl 64 dbg Model.Sha2.compress32)
  | SM3 => stream_span _ 64 128 dbg (md_impl 64 dbg Model.Sm3.compress)
  | Tiger1_128 => stream_span _ 64 128 dbg (md_impl 64 dbg Model.Tiger.compress)
  | Tiger1_160 => stream_span _ 64 128 dbg (md_impl 64 dbg Model.Tiger.compress)
  | Tiger1_192 => stream_span _ 64 128 dbg (md_impl 64 dbg Model.Tiger.compress)
  | Tiger2_128 => stream_span _ 64 128 dbg (md_impl 64 dbg Model.Tiger.compress)
  | Tiger2_160 => stream_span _ 64 128 dbg (md_impl 64 dbg Model.Tiger.compress)
  | Tiger2_192 => stream_span _ 64 128 dbg (md_impl 64 dbg Model.Tiger.compress)
  | SHA2_384 => stream_span _ 128 256 dbg (md128_impl 128 dbg Model.Sha2.compress64)
  | SHA2_512 => stream_span _ 128 256 dbg (md128_impl 128 dbg Model.Sha2.compress64)
  | SHA2_512_224 => stream_span _ 128 256 dbg (md128_impl 128 dbg Model.Sha2.compress64)
  | SHA2_512_256 => stream_span _ 128 256 dbg (md128_impl 128 dbg Model.Sha2.compress64)
  | Whirlpool => stream_span _ 64 128 dbg (md128_impl 64 dbg Model.Whirlpool.compress)
  | SHA3_224 => stream_span _ (1152 / 8) (1152 / 8) dbg (Model.Keccak.impl (1152 / 8) dbg)
  | SHA3_256 => stream_span _ (1088 / 8) (1088 / 8) dbg (Model.Keccak.impl (1088 / 8) dbg)
  | SHA3_384 => stream_span _ (832 / 8) (832 / 8) dbg (Model.Keccak.impl (832 / 8) dbg)
  | SHA3_512 => stream_span _ (576 / 8) (576 / 8) dbg (Model.Keccak.impl (576 / 8) dbg)
  | SHAKE_128 d => stream_span _ (1344 / 8) (1344 / 8) dbg (Model.Keccak.impl (1344 / 8) dbg)
  | SHAKE_256 d => stream_span _ (1088 / 8) (1088 / 8) dbg (Model.Keccak.impl (1088 / 8) dbg)
  | SipHash k0 k1 => stream_span _ 8 16 dbg (Model.SipHash.addDataImpl 2 dbg)
  end.

(** ** the other overloads: the same text in every header (tuple_hash.h says nextData) *)
Section Overloads.
  Variable O : Type.
  (** addData(Span<const Byte>) *)
  Variable add : memory -> span -> O -> res O.

  (** addData(const void *ptr, std::size_t length)      sha1.h:419-423 *)
  Definition add_pointer (mem : memory) (ptr length : N) : O -> res O := add mem (mkSpan ptr length).
  (** addData(const Byte (&array)[N])      sha1.h:425-429 *)
  Definition add_bytes (mem : memory) (array : N) (n : N) : O -> res O := add mem (mkSpan array n).
  (** addData(const T (&array)[N]), where sizeof(T) is [size]      sha1.h:431-435 *)
  Definition add_array (size : N) (mem : memory) (array : N) (n : N) : O -> res O := add mem (mkSpan array (umul 64 size n)).
  (** addData(Span<T> inSpan): inSpan.data(), inSpan.size_bytes()      sha1.h:437-441, gsl/span:640 *)
  Definition add_typed_span (size : N) (mem : memory) (data n : N) : O -> res O := add mem (mkSpan data (umul 64 n size)).

  Definition add_call (mem : memory) (c : call) : O -> res O :=
    match c with
    | ByteSpan p n => add mem (mkSpan p n)
    | Pointer p n => add_pointer mem p n
    | Bytes p n => add_bytes mem p n
    | Array size p n => add_array size mem p n
    | TypedSpan size p n => add_typed_span size mem p n
    end.
End Overloads.

(** ** cSHAKE and TupleHash *)
Section CShake.
  Variables (log2 : N -> N) (R : nat) (sufS sufK : N) (dbg : bool).
  (** cshake.h:289-294, 324-331 *)
  Definition cshake_span (mem : memory) (sp : span) : CShake.Obj -> res CShake.Obj :=
    CShake.on_selected sufS sufK (fun _ => stream_span _ R R dbg (Model.Keccak.impl R dbg) mem sp).
  (** nextData      tuple_hash.h:188-196 *)
  Definition tuple_span (mem : memory) (sp : span) (o : TupleHash.Obj) : res TupleHash.Obj :=
    let! encoded := CShake.leftEncode log2 dbg (umul 64 (sp_size sp) 8) in
    let! o := TupleHash.addDataImpl R sufS sufK dbg (buf_span encoded) o in
    let! c := cshake_span mem sp (TupleHash.m_cshake o) in
    Ok (TupleHash.mkObj c (TupleHash.m_digestLength o)).
End CShake.
