(** Model of sha3.h: template class Keccak<R, P>, SHA3_224 ... SHA3_512, SHAKE_128, SHAKE_256. *)
From Coq Require Import List NArith ZArith Arith Bool.
From Verif.Base Require Import Res CWord.
From Verif.Model Require Import Buffer Stream Api.
From Verif.Model.Gen Require Import KeccakTables.
Import ListNotations.
Local Open Scope N_scope.

(** m_state[5][5], m_final, m_digestLength      sha3.h:267-272.
    m_state is the list of its 25 words in memory order; m_state[y][x] is word 5y + x, which
    is also how addDataImpl and stateToVector address it (through a uint64_t pointer). *)
Record St := mkSt { k_state : list N; k_final : list N; k_len : nat }.

Definition st (l : list N) (y x : nat) : res N := aget l (5 * y + x).
Definition st_set (l : list N) (y x : nat) (v : N) : res (list N) := aset l (5 * y + x) v.

(** c[x]      sha3.h:484-491 *)
Definition column (l : list N) (x : nat) : res N :=
  let! a := st l 0 x in let! b := st l 1 x in let! c := st l 2 x in let! d := st l 3 x in let! e := st l 4 x in
  Ok (N.lxor (N.lxor (N.lxor (N.lxor a b) c) d) e).

(** theta      sha3.h:482-509 *)
Definition theta (l : list N) : res (list N) :=
  let! c0 := column l 0 in let! c1 := column l 1 in let! c2 := column l 2 in
  let! c3 := column l 3 in let! c4 := column l 4 in
  let d := [N.lxor c4 (rotl 64 c1 1); N.lxor c0 (rotl 64 c2 1); N.lxor c1 (rotl 64 c3 1);
            N.lxor c2 (rotl 64 c4 1); N.lxor c3 (rotl 64 c0 1)] in
  for_ 0 5 (fun y l =>
    for_ 0 5 (fun x l => let! v := st l y x in let! dx := aget d x in st_set l y x (N.lxor v dx)) l) l.

(** tmp[5][5]; m_params.w is 64      sha3.h:265, 514-551 *)
Definition rhoPi_tmp (l : list N) : res (list N) :=
  mapM (fun e : nat * nat * N => let '(a, b, c) := e in
    let! v := st l a b in Ok (rotl 64 v (c mod 64))) rhoPi.

(** chi; the five columns are written out in the code, with indices modulo 5      sha3.h:552-560 *)
Definition chi (tmp l : list N) : res (list N) :=
  for_ 0 5 (fun y l =>
    foldM (fun (ijk : nat * nat * nat) l => let '(i, j, k) := ijk in
      let! a := st tmp y i in let! b := st tmp y j in let! c := st tmp y k in
      st_set l y i (N.lxor a (N.land (unot 64 b) c)))
      [(0, 1, 2); (1, 2, 3); (2, 3, 4); (3, 4, 0); (4, 0, 1)]%nat l) l.

(** rhoPiChi      sha3.h:511-561 *)
Definition rhoPiChi (l : list N) : res (list N) := let! tmp := rhoPi_tmp l in chi tmp l.

(** iota      sha3.h:562-573 *)
Definition iota (indexRound : nat) (l : list N) : res (list N) :=
  let! v := st l 0 0 in let! c := aget roundConstantTable indexRound in st_set l 0 0 (N.lxor v c).

(** roundFunction      sha3.h:480-578 *)
Definition roundFunction (indexRound : nat) (l : list N) : res (list N) :=
  let! l := theta l in let! l := rhoPiChi l in iota indexRound l.

Section Keccak.
  (** template arguments R, P *)
  Variables (R : nat) (P : N) (dbg : bool).

  (** the loop body of addDataImpl      sha3.h:474-581 *)
  Definition compress (m : list N) (l : list N) : res (list N) :=
    let! l := for_ 0 (R / 8) (fun i l =>
      let! v := aget l i in let! w := load_le 8 m i in aset l i (N.lxor v w)) l in
    for_ 0 24 roundFunction l.

  (** addDataImpl      sha3.h:467-583 *)
  Definition impl (data : list N) (s : St) : res St :=
    let! _ := assert_aligned R dbg data in
    let! l := block_loop (list N) R compress data (k_state s) in
    Ok (mkSt l (k_final s) (k_len s)).

  (** stateToVector      sha3.h:585-600 *)
  Definition stateToVector (l : list N) : list N := flat_map (word_bytes_le 8) l.

  (** the while loop of finalize      sha3.h:347-356.  It runs at most digestLength + 1
      times (each turn adds R > 0 bytes), which is the fuel given below. *)
  Fixpoint squish (fuel : nat) (s : St) : res St :=
    match fuel with
    | O => Ub OutOfFuel
    | S k =>
        let state := stateToVector (k_state s) in
        let! head := (if (R <=? length state)%nat then Ok (firstn R state) else Ub OobRead) in
        let s := mkSt (k_state s) (k_final s ++ head) (k_len s) in
        if (k_len s <=? length (k_final s))%nat then Ok s
        else let! s := impl (repeat 0 R) s in squish k s
    end.

  (** m_final.resize(n) *)
  Definition resize (n : nat) (l : list N) : list N := firstn n l ++ repeat 0 (n - length l).

  (** finalize      sha3.h:333-360 *)
  Definition finalize (o : Buffer * St) : res (Buffer * St) :=
    let (buf, s) := o in
    let! buf := buf_fill dbg P 1 buf in
    let len := ((2 * R - buf_size buf) mod R)%nat in
    let! buf := buf_fill dbg 0 len buf in
    let! v := buf_get_from_end 1 buf in
    let! buf := buf_set_from_end 1 0 (N.lor v 128) buf in
    let! s := impl (buf_span buf) s in
    let buf := buf_clear buf in
    let! s := squish (S (k_len s)) s in
    Ok (buf, mkSt (k_state s) (resize (k_len s) (k_final s)) (k_len s)).

  (** reset      sha3.h:322-331 *)
  Definition reset (o : Buffer * St) : Buffer * St :=
    (buf_clear (fst o), mkSt (repeat 0 25) [] (k_len (snd o))).

  (** the constructor with a length that is not negative      sha3.h:309-320 *)
  Definition new (digestLength : nat) : Buffer * St :=
    reset (buf_new R, mkSt (repeat 0 25) [] digestLength).

  (** the constructor: m_final.reserve(m_digestLength) converts to size_t; a negative int
      becomes more than max_size() and std::length_error is thrown      sha3.h:318.
      Running out of memory (std::bad_alloc) is not modelled. *)
  Definition construct (digestLength : Z) : res (Buffer * St) :=
    if (digestLength <? 0)%Z then Throw LengthError else Ok (new (Z.to_nat digestLength)).

  Definition addData := Stream.addData St R R dbg impl.

  (** toVector      sha3.h:382-386 *)
  Definition toVector (o : Buffer * St) : res (list N) := Ok (k_final (snd o)).

  Definition cls (digestLength : nat) : HashClass :=
    {| Obj := Buffer * St;
       c_new := new digestLength;
       c_add := addData;
       c_finalize := finalize;
       c_reset := reset;
       c_array := toVector |}.
End Keccak.

(** sha3.h:614-617 *)
Definition cls224 (dbg : bool) := cls (1152 / 8) 0x06 dbg (224 / 8).
Definition cls256 (dbg : bool) := cls (1088 / 8) 0x06 dbg (256 / 8).
Definition cls384 (dbg : bool) := cls (832 / 8) 0x06 dbg (384 / 8).
Definition cls512 (dbg : bool) := cls (576 / 8) 0x06 dbg (512 / 8).
(** sha3.h:629-630 *)
Definition shake128 (dbg : bool) (digestLength : nat) := cls (1344 / 8) 0x1F dbg digestLength.
Definition shake256 (dbg : bool) (digestLength : nat) := cls (1088 / 8) 0x1F dbg digestLength.
