(** Hash objects in any order of calls: what they hold and what they show.

    An object of a Merkle-Damgard class holds two things: the bytes that went into it since it was new (the data and the paddings
    of finalize()), and the length it believes to have seen.  The digest it shows, at any time, is that of the chaining value behind the
    complete blocks of these bytes. *)
From Coq Require Import List NArith Arith Bool.
From Verif.Spec Require Import Words Client Merkle AnyOrder.
From Verif.Spec Require Has160 Md4 Md5 Ripemd Sha1 Sha2 Sm3 Tiger Whirlpool.
Import ListNotations.

(** ** Programs over a kind of objects: what each call does, and what the read-outs show *)
Record kind := mkKind {
  Book : Type;
  k_new : Book;
  k_add : list N -> Book -> Book;
  k_finalize : Book -> Book;
  k_reset : Book -> Book;
  k_digest : Book -> list N
}.

Section Told.
  Variable k : kind.
  Definition called (o : op) (x : Book k) : Book k :=
    match o with AddData d => k_add k d x | Finalize => k_finalize k x | Reset => k_reset k x | _ => x end.
  Definition enter (s : nat -> Book k) (i : nat) (x : Book k) : nat -> Book k := fun j => if j =? i then x else s j.

  (** the read-outs of a program, and the objects at its end *)
  Fixpoint told (p : list cmd) (s : nat -> Book k) : list obs :=
    match p with
    | [] => []
    | On i o :: rest => shows (k_digest k (s i)) o ++ told rest (enter s i (called o (s i)))
    | CopyTo i j :: rest => told rest (enter s i (s j))
    end.
  Fixpoint left (p : list cmd) (s : nat -> Book k) : nat -> Book k :=
    match p with
    | [] => s
    | On i o :: rest => left rest (enter s i (called o (s i)))
    | CopyTo i j :: rest => left rest (enter s i (s j))
    end.
End Told.

(** what is asked of a program: addData() is given bytes in memory, and digests are read only if the class can show them *)
Definition callable (readable : bool) (c : cmd) : Prop :=
  match c with
  | On _ (AddData d) => span_ok d
  | On _ o => reads o = true -> readable = true
  | CopyTo _ _ => True
  end.

(** ** The Merkle-Damgard classes *)
Record ledger := mkLedger { l_in : list N; l_length : N }.

(** block size, size of the length field, marker byte, encoding of the length; width of the counter of bytes; the factor by which
    finalize() multiplies this counter; the digest shown for the chaining value behind some complete blocks *)
Record scheme := mkScheme {
  s_block : nat;
  s_field : nat;
  s_mark : N;
  s_enc : N -> list N;
  s_width : N;
  s_factor : N;
  s_shown : list N -> list N
}.

Section Ledger.
  Variable S : scheme.
  Definition full_blocks (m : list N) : list N := firstn (length m / s_block S * s_block S) m.

  (** what finalize() appends to the [n] bytes in the object: marker, zeros up to the length field, the believed length in bits *)
  Definition closed (n : nat) (believed : N) : list N :=
    [s_mark S] ++ repeat 0%N (zeros (s_block S) (s_field S) n) ++ s_enc S ((8 * believed) mod 2 ^ s_width S)%N.

  Definition l_new : ledger := mkLedger [] 0.
  Definition l_add (d : list N) (x : ledger) : ledger := mkLedger (l_in x ++ d) (l_length x + N.of_nat (length d)).
  (** the bytes of the incomplete block are counted twice: before the padding is written and with the blocks it completes *)
  Definition l_finalize (x : ledger) : ledger :=
    let t := closed (length (l_in x)) (l_length x) in
    mkLedger (l_in x ++ t) (s_factor S * l_length x + N.of_nat (length (l_in x) mod s_block S + length t)).

  Definition ledger_kind : kind :=
    mkKind ledger l_new l_add l_finalize (fun _ => l_new) (fun x => s_shown S (full_blocks (l_in x))).
End Ledger.

(** ** The classes *)
Definition le64 (mark : N) (shown : list N -> list N) : scheme := mkScheme 64 8 mark (le_bytes 8) 64 1 shown.
Definition be64 (shown : list N -> list N) : scheme := mkScheme 64 8 128 (be_bytes 8) 64 1 shown.
(** the classes with a Uint128 counter: its operator* changes the counter itself *)
Definition be128 (shown : list N -> list N) : scheme := mkScheme 128 16 128 (be_bytes 16) 128 8 shown.

Definition has160 := le64 128 (fun d => flat_map (le_bytes 4) (chain 64 Has160.compress Has160.iv d)).
Definition md4 := le64 128 (fun d => flat_map (le_bytes 4) (chain 64 Md4.compress Md4.iv d)).
Definition md5 := le64 128 (fun d => flat_map (le_bytes 4) (chain 64 Md5.compress Md5.iv d)).
Definition ripemd128 := le64 128 (fun d => flat_map (le_bytes 4) (chain 64 Ripemd.compress128 Ripemd.iv128 d)).
Definition ripemd160 := le64 128 (fun d => flat_map (le_bytes 4) (chain 64 Ripemd.compress160 Ripemd.iv160 d)).
Definition ripemd256 := le64 128 (fun d => flat_map (le_bytes 4) (chain 64 Ripemd.compress256 Ripemd.iv256 d)).
Definition ripemd320 := le64 128 (fun d => flat_map (le_bytes 4) (chain 64 Ripemd.compress320 Ripemd.iv320 d)).
Definition sha1 := be64 (fun d => flat_map (be_bytes 4) (chain 64 Sha1.compress Sha1.H0 d)).
Definition sha224 := be64 (fun d => firstn 28 (flat_map (be_bytes 4) (chain 64 Sha2.compress256 Sha2.IV224 d))).
Definition sha256 := be64 (fun d => flat_map (be_bytes 4) (chain 64 Sha2.compress256 Sha2.IV256 d)).
Definition sha384 := be128 (fun d => firstn 48 (flat_map (be_bytes 8) (chain 128 Sha2.compress512 Sha2.IV384 d))).
Definition sha512 := be128 (fun d => flat_map (be_bytes 8) (chain 128 Sha2.compress512 Sha2.IV512 d)).
Definition sha512_224 := be128 (fun d => firstn 28 (flat_map (be_bytes 8) (chain 128 Sha2.compress512 (Sha2.iv_of_t Sha2.name_512_224) d))).
Definition sha512_256 := be128 (fun d => firstn 32 (flat_map (be_bytes 8) (chain 128 Sha2.compress512 (Sha2.iv_of_t Sha2.name_512_256) d))).
Definition sm3 := be64 (fun d => flat_map (be_bytes 4) (chain 64 Sm3.compress Sm3.iv d)).
Definition tiger1 := le64 1 (fun d => Tiger.digest (chain 64 Tiger.compress Tiger.iv d)).
Definition tiger2 := le64 128 (fun d => Tiger.digest (chain 64 Tiger.compress Tiger.iv d)).
Definition whirlpool := mkScheme 64 32 128 (be_bytes 32) 128 8 (fun d => concat (chain 64 Whirlpool.compress Whirlpool.iv d)).
