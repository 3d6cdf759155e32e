(** Model of blake2.h and blake2s.h.  The two headers differ in the word type, the block
    size, the initial values, the number of unrolled rounds, the rotation distances and the
    type of m_sizeCounter (Uint128 with low() and high(), or uint64_t with
    ror<uint32_t>(_, 0) and ror<uint32_t>(_, 32)).

    m_initializationVector is a const member that is not static: every object has its own
    copy, which nobody can change; the model has it as a constant.  (Because of it the
    classes can be copy-constructed but not assigned to.) *)
From Coq Require Import List NArith Arith Bool ZArith.
From Verif.Base Require Import Res CWord.
From Verif.Model Require Import Buffer Stream Api Call BlakeMix.
From Verif.Model Require Import Counter.
From Verif.Model.Gen Require Blake2Calls Blake2sCalls.
Import ListNotations.
Local Open Scope N_scope.

Section AddData.
  Variable St : Type.
  Variables (B : nat) (dbg : bool).
  Variable impl : list N -> St -> res St.     (* addDataImpl(_, false) *)

  (** the part after the ifs      blake2.h:463-473 *)
  Definition addData_tail (data : list N) (s : St) : res (Buffer * St) :=
    let dataSize := length data in
    let remainder := if negb (dataSize mod B =? 0)%nat then (dataSize mod B)%nat else B in
    if (remainder <=? dataSize)%nat then
      let len := (dataSize - remainder)%nat in
      let! d := span_first len data in
      let! s := impl d s in
      let! buf := buf_of_range dbg B (skipn len data) in
      Ok (buf, s)
    else Ub SpanPre.

  (** addData(Span<const Byte>)      blake2.h:441-474, blake2s.h:375-408.
      The recursion is at most two deep: after the buffer was filled up, it is full or no
      data is left.  BLOCK_SIZE - m_buffer.size() cannot wrap, because BLOCK_SIZE is the
      capacity of the buffer. *)
  Fixpoint addData_rec (fuel : nat) (inData : list N) (o : Buffer * St) : res (Buffer * St) :=
    match fuel with
    | O => Ub OutOfFuel
    | S fuel =>
        let (buf, s) := o in
        match inData with
        | [] => Ok o
        | _ =>
            if (buf_size buf =? B)%nat then
              let! s := impl (buf_span buf) s in
              addData_tail inData s
            else if negb (buf_empty buf) then
              let len := min (B - buf_size buf) (length inData) in
              let! buf := buf_push_back dbg (firstn len inData) buf in
              let! data := span_subspan len inData in
              addData_rec fuel data (buf, s)
            else addData_tail inData s
        end
    end.
  Definition addData : list N -> Buffer * St -> res (Buffer * St) := addData_rec 3.
End AddData.

Section Core.
  Variable w : N.                       (* uint64_t or uint32_t *)
  Variable nb : nat.                    (* sizeof of it *)
  Variables r1 r2 r3 r4 : N.
  Variable IV : list N.                 (* m_initializationVector *)
  Variable F : Type.
  Variable calls : list (call F).
  Variable K : Counter.
  Variable dbg : bool.

  Definition BLOCK_SIZE : nat := (16 * nb)%nat.

  (** blakeMix(v[a], v[b], v[c], v[d], m[x], m[y])      blake2.h:534-629, blake2s.h:468-547 *)
  Definition exec_call (m : list N) (c : call F) (v : list N) : res (list N) :=
    match c_args c with
    | [x; y] =>
        let! mx := load_le nb m (N.to_nat x) in
        let! my := load_le nb m (N.to_nat y) in
        call_regs (blakeMix w r1 r2 r3 r4 mx my) (c_regs c) v
    | _ => Ub OobRead
    end.

  (** the loop body of addDataImpl      blake2.h:506-642, blake2s.h:440-560
      (+= converts the int BLOCK_SIZE - paddingLen to uint64_t; the eight statements
      m_h[i] ^= (v[i] ^ v[i + 8]) are written as a loop) *)
  Definition compress (isFinal : bool) (paddingLen : nat) (mem : list N) (s : ctr K * list N) : res (ctr K * list N) :=
    let (cnt, h) := s in
    let cnt := k_add K cnt (Z.to_N ((Z.of_nat BLOCK_SIZE - Z.of_nat paddingLen) mod 2 ^ 64)) in
    let! hs := mapM (aget h) (seq 0 8) in
    let! ivs := mapM (aget IV) (seq 0 4) in
    let! iv4 := aget IV 4 in
    let! iv5 := aget IV 5 in
    let! iv6 := aget IV 6 in
    let! iv7 := aget IV 7 in
    let v := hs ++ ivs ++ [N.lxor iv4 (k_lo K cnt); N.lxor iv5 (k_hi K cnt); if isFinal then unot w iv6 else iv6; iv7] in
    let! v := foldM (exec_call mem) calls v in
    let! h := for_ 0 8 (fun i h =>
      let! hi := aget h i in
      let! vi := aget v i in
      let! vj := aget v (i + 8) in
      aset h i (N.lxor hi (N.lxor vi vj))) h in
    Ok (cnt, h).

  (** addDataImpl(data, isFinal, paddingLen)      blake2.h:500-643, blake2s.h:434-561 *)
  Definition impl (isFinal : bool) (paddingLen : nat) (data : list N) (s : ctr K * list N) : res (ctr K * list N) :=
    let! _ := assert_aligned BLOCK_SIZE dbg data in
    block_loop _ BLOCK_SIZE (compress isFinal paddingLen) data s.

  (** finalize()      blake2.h:373-383, blake2s.h:307-317 *)
  Definition finalize (o : Buffer * (ctr K * list N)) : res (Buffer * (ctr K * list N)) :=
    let (buf, s) := o in
    let len := (BLOCK_SIZE - buf_size buf)%nat in
    let! buf := buf_fill dbg 0 len buf in
    let! s := impl true len (buf_span buf) s in
    Ok (buf_clear buf, s).

  (** toArray(): all words, little-endian      blake2.h:410-424, blake2s.h:344-358 *)
  Definition toArray (size : nat) (s : ctr K * list N) : res (list N) :=
    store_array size (flat_map (word_bytes_le nb) (snd s)).

  (** m_h after reset(): the initial values, and m_h[0] ^= (0x01010000 ^ (0 << 8) ^ 64), with
      32 instead of 64 in blake2s.h      blake2.h:362-371, blake2s.h:296-305 *)
  Definition h_reset (nn : N) : list N :=
    match IV with
    | [] => []
    | x :: t => N.lxor x (N.lxor (N.lxor 0x01010000 0) nn) :: t
    end.

  Definition cls (size : nat) : HashClass := {|
    Obj := Buffer * (ctr K * list N);
    c_new := (buf_new BLOCK_SIZE, (k_zero K, h_reset (N.of_nat size)));
    c_add := addData _ BLOCK_SIZE dbg (impl false 0);
    c_finalize := finalize;
    c_reset := fun o => (buf_clear (fst o), (k_zero K, h_reset (N.of_nat size)));
    c_array := fun o => toArray size (snd o)
  |}.
End Core.

(** m_initializationVector      blake2.h:315-319, blake2s.h:252-256 *)
Definition iv_b : list N :=
  [0x6a09e667f3bcc908; 0xbb67ae8584caa73b; 0x3c6ef372fe94f82b; 0xa54ff53a5f1d36f1;
   0x510e527fade682d1; 0x9b05688c2b3e6c1f; 0x1f83d9abfb41bd6b; 0x5be0cd19137e2179].
Definition iv_s : list N :=
  [0x6a09e667; 0xbb67ae85; 0x3c6ef372; 0xa54ff53a; 0x510e527f; 0x9b05688c; 0x1f83d9ab; 0x5be0cd19].

(** rotation distances: blake2.h:523-531, blake2s.h:457-465 *)
Definition cls_b (dbg : bool) : HashClass := cls 64 8 32 24 16 63 iv_b _ Blake2Calls.calls ctr128 dbg 64.
Definition cls_s (dbg : bool) : HashClass := cls 32 4 16 12 8 7 iv_s _ Blake2sCalls.calls ctr64 dbg 32.
