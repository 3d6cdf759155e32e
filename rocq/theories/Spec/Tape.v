(** Sponge objects in any order of calls: what they hold and what they show.

    Such an object is told by three things: its output length, the bytes that went into the sponge since it was new (the data, the
    paddings of finalize() and the zero blocks that stand for further squeezing), and the digest, which is empty or complete. *)
From Coq Require Import List NArith ZArith Arith Bool.
From Verif.Spec Require Import Words Client ObjClient Keccak KeccakTypes Sp800185 Ownership.
Import ListNotations.

Record tape := mkTape { t_len : nat; t_in : list N; t_out : list N }.

Section Tape.
  (** rate in bits, domain separation suffix *)
  Variables (r : nat) (sfx : bits).

  (** suffix and pad10*1 after the message m, as bytes *)
  Definition closing (m : list N) : list N := bytes_of (sfx ++ pad101 r (length (bits_of m ++ sfx))).
  (** d bytes of output for the message m *)
  Definition squeezed (d : nat) (m : list N) : list N := bytes_of (sponge r (8 * d) (bits_of m ++ sfx)).

  Definition t_new (d : nat) : tape := mkTape d [] [].
  Definition t_feed (m : list N) (x : tape) : tape := mkTape (t_len x) (t_in x ++ m) (t_out x).
  (** finalize(): a digest that is there stays; otherwise it is squeezed, block by block *)
  Definition t_finalize (x : tape) : tape :=
    match t_out x with
    | [] => mkTape (t_len x) (t_in x ++ closing (t_in x) ++ repeat 0%N ((t_len x - 1) / (r / 8) * (r / 8))) (squeezed (t_len x) (t_in x))
    | _ => mkTape (t_len x) (t_in x ++ closing (t_in x)) (t_out x)
    end.
  Definition t_reset (x : tape) : tape := t_new (t_len x).
  (** what a move leaves of its source *)
  Definition t_moved (x : tape) : tape := mkTape (t_len x) (t_in x) [].
End Tape.

(** ** Kinds of objects, by the arguments of their constructors: what they hold, and what each call does with it; None: a null pointer is used *)
Record kind (Given : Type) := mkKind {
  Held : Type;
  k_new : Given -> Held;
  k_feed : list N -> Held -> option Held;
  k_finalize : Held -> option Held;
  k_reset : Held -> option Held;
  k_digest : Held -> option (list N);
  k_copy : Held -> option Held;
  k_move : Held -> Held * Held;                   (* the new object; what is left of the other *)
  k_assign : Held -> Held -> option Held;         (* target, source *)
  k_massign : Held -> Held -> Held * Held         (* target, source; the target and what is left of the source *)
}.
Arguments Held {Given}. Arguments k_new {Given}. Arguments k_feed {Given}. Arguments k_finalize {Given}. Arguments k_reset {Given}.
Arguments k_digest {Given}. Arguments k_copy {Given}. Arguments k_move {Given}. Arguments k_assign {Given}. Arguments k_massign {Given}.

Section Story.
  Context {Given : Type}.
  Variable k : kind Given.
  Definition holdings := nat -> option (Held k).
  Definition hput (s : holdings) (i : nat) (x : Held k) : holdings := fun j => if j =? i then Some x else s j.
  Definition at_slot {A} (s : holdings) (i : nat) (f : Held k -> fate A) : fate A :=
    match s i with Some x => f x | None => NoSuchObject end.
  Definition if_there {A B} (x : option A) (f : A -> fate B) : fate B := match x with Some a => f a | None => NullPointer end.
  Definition becomes (s : holdings) (i : nat) (x : option (Held k)) : fate (holdings * option obs) :=
    if_there x (fun x => Goes (hput s i x, None)).
  Definition shows (s : holdings) (i : nat) (f : list N -> fate obs) : fate (holdings * option obs) :=
    at_slot s i (fun x => if_there (k_digest k x) (fun d =>
      match f d with Goes w => Goes (s, Some w) | NullPointer => NullPointer | TextOfNothing => TextOfNothing | NoSuchObject => NoSuchObject end)).

  Definition hstep (c : ocmd Given) (s : holdings) : fate (holdings * option obs) :=
    match c with
    | Construct i a => Goes (hput s i (k_new k a), None)
    | Feed i m => at_slot s i (fun x => becomes s i (k_feed k m x))
    | Fin i => at_slot s i (fun x => becomes s i (k_finalize k x))
    | Rst i => at_slot s i (fun x => becomes s i (k_reset k x))
    | Vec i => shows s i (fun d => Goes (OBytes d))
    | Str i => shows s i (fun d => match d with [] => TextOfNothing | _ => Goes (OChars (hex_text d)) end)
    | Uint i n => shows s i (fun d => Goes (ONum (leading_number n d)))
    | Std i => shows s i (fun d => Goes (ONum (leading_number 8 d)))
    | CopyConstruct i j => at_slot s j (fun y => becomes s i (k_copy k y))
    | MoveConstruct i j => at_slot s j (fun y => let (x, y) := k_move k y in Goes (hput (hput s j y) i x, None))
    | CopyAssign i j => at_slot s i (fun x => at_slot s j (fun y => if i =? j then Goes (s, None) else becomes s i (k_assign k x y)))
    | MoveAssign i j =>
        at_slot s i (fun x => at_slot s j (fun y =>
          if i =? j then Goes (s, None) else let (x, y) := k_massign k x y in Goes (hput (hput s j y) i x, None)))
    end.

  (** one call after the other: what they show, and what the objects hold in the end *)
  Fixpoint story (p : list (ocmd Given)) (s : holdings) : fate (list obs * holdings) :=
    match p with
    | [] => Goes ([], s)
    | c :: rest =>
        match hstep c s with
        | Goes (s, w) =>
            match story rest s with
            | Goes (os, s) => Goes (match w with Some x => x :: os | None => os end, s)
            | f => f
            end
        | NullPointer => NullPointer | TextOfNothing => TextOfNothing | NoSuchObject => NoSuchObject
        end
    end.
  Definition told (p : list (ocmd Given)) : fate (list obs * holdings) := story p (fun _ => None).
End Story.

(** ** SHA-3 and SHAKE objects: constructed with the output length *)
Definition sha3_kind (t : keccak_type) : kind Z :=
  {| Held := tape;
     k_new := fun d => t_new (Z.to_nat d);
     k_feed := fun m x => Some (t_feed m x);
     k_finalize := fun x => Some (t_finalize (rate t) (suffix t) x);
     k_reset := fun x => Some (t_reset x);
     k_digest := fun x => Some (t_out x);
     k_copy := Some;
     k_move := fun x => (x, t_moved x);
     k_assign := fun _ x => Some x;
     k_massign := fun _ x => (x, t_moved x) |}.

(** ** cSHAKE objects: a flag that says which of two sponges is in use; a sponge may be missing *)
Record pair := mkPair { c_custom : bool; c_tapes : bool -> option tape }.
Definition change (f : bool -> option tape) (b : bool) (x : option tape) : bool -> option tape := fun b' => if eqb b' b then x else f b'.
Definition selected (w : pair) : option tape := c_tapes w (c_custom w).
Definition on_tape (f : bool -> tape -> tape) (w : pair) : option pair :=
  match selected w with
  | Some x => Some (mkPair (c_custom w) (change (c_tapes w) (c_custom w) (Some (f (c_custom w) x))))
  | None => None
  end.
(** flags change places, and the sponges of the kind that the source had in use *)
Definition trade (this other : pair) : pair * pair :=
  let b := c_custom other in
  (mkPair b (change (c_tapes this) b (c_tapes other b)), mkPair (c_custom this) (change (c_tapes other) b (c_tapes this b))).
Definition no_pair : pair := mkPair false (fun _ => None).

(** SHAKE without name and customization, suffix 00 otherwise *)
Definition cshake_suffix (custom : bool) : bits := if custom then [false; false] else [true; true; true; true].
(** what an object has absorbed when it is new *)
Definition cshake_head (r : nat) (name custom : list N) : list N :=
  if is_nil name && is_nil custom then [] else bytepad (encode_string name ++ encode_string custom) (r / 8).
Definition cshake_new (r : nat) (a : Z * list N * list N) : pair :=
  let '(d, name, custom) := a in
  let b := negb (is_nil name && is_nil custom) in
  mkPair b (change (fun _ => None) b (Some (t_feed (cshake_head r name custom) (t_new (Z.to_nat d))))).
(** reset() starts the sponge anew, without the head *)
Definition cshake_finalize (r : nat) : pair -> option pair := on_tape (fun b => t_finalize r (cshake_suffix b)).
Definition cshake_copy (x : pair) : option pair :=
  match selected x with
  | Some y => Some (mkPair (c_custom x) (change (fun _ => None) (c_custom x) (Some y)))
  | None => None
  end.
Definition cshake_assign (this other : pair) : option pair :=
  match c_tapes this (c_custom other), selected other with
  | Some _, Some y => Some (mkPair (c_custom other) (change (c_tapes this) (c_custom other) (Some y)))
  | _, _ => None
  end.
Definition digest_of (x : pair) : option (list N) := match selected x with Some y => Some (t_out y) | None => None end.
Definition cshake_kind (r : nat) : kind (Z * list N * list N) :=
  {| Held := pair;
     k_new := cshake_new r;
     k_feed := fun m => on_tape (fun _ => t_feed m);
     k_finalize := cshake_finalize r;
     k_reset := on_tape (fun _ => t_reset);
     k_digest := digest_of;
     k_copy := cshake_copy;
     k_move := trade no_pair;
     k_assign := cshake_assign;
     k_massign := trade |}.

(** ** TupleHash objects: a cSHAKE object and the output length that finalize() announces *)
Definition also {A B} (b : B) (x : option A) : option (A * B) := match x with Some a => Some (a, b) | None => None end.
Definition both {A B} (b : B) (xy : A * A) : (A * B) * (A * B) := ((fst xy, b), (snd xy, b)).
Definition tuple_kind (r : nat) : kind (Z * list N) :=
  {| Held := pair * nat;
     k_new := fun a => (cshake_new r (fst a, tuple_name, snd a), Z.to_nat (fst a));
     k_feed := fun m x => also (snd x) (on_tape (fun _ => t_feed (encode_string m)) (fst x));
     k_finalize := fun x =>
       match on_tape (fun _ => t_feed (right_encode (8 * N.of_nat (snd x)))) (fst x) with
       | Some w => also (snd x) (cshake_finalize r w)
       | None => None
       end;
     k_reset := fun x => also (snd x) (on_tape (fun _ => t_reset) (fst x));
     k_digest := fun x => digest_of (fst x);
     k_copy := fun x => also (snd x) (cshake_copy (fst x));
     k_move := fun x => both (snd x) (trade no_pair (fst x));
     k_assign := fun x y => also (snd y) (cshake_assign (fst x) (fst y));
     k_massign := fun x y => both (snd y) (trade (fst x) (fst y)) |}.

(** the rates of CSHAKE_128 / TupleHash_128 and CSHAKE_256 / TupleHash_256 *)
Definition rate128 : nat := 1600 - 256.
Definition rate256 : nat := 1600 - 512.
