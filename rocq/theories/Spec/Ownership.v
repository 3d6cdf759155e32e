(** Which programs over cSHAKE and TupleHash objects go through.

    Such an object owns up to two sponges, one for use without and one for use with name or customization, and a flag
    says which of them is in use.  Calls may come in any order; the only things that can go wrong are: using a sponge that is
    not there, and asking for the text of an empty digest. *)
From Coq Require Import List NArith ZArith Arith Bool.
From Verif.Spec Require Import Words ObjClient.
Import ListNotations.

(** a sponge: its output length; finalize() has run since reset() *)
Record part := mkPart { p_len : nat; p_done : bool }.
Record owner := mkOwner { w_custom : bool; w_parts : bool -> option part }.

Definition with_part (f : bool -> option part) (c : bool) (p : option part) : bool -> option part :=
  fun k => if eqb k c then p else f k.
Definition in_use (w : owner) : option part := w_parts w (w_custom w).

(** what a move leaves and makes: the flags change places, and so do the sponges of the kind the source had in use *)
Definition exchange (this other : owner) : owner * owner :=
  let c := w_custom other in
  (mkOwner c (with_part (w_parts this) c (w_parts other c)),
   mkOwner (w_custom this) (with_part (w_parts other) c (w_parts this c))).
(** an object in the course of move construction *)
Definition nothing : owner := mkOwner false (fun _ => None).

Inductive fate (A : Type) := Goes (a : A) | NullPointer | TextOfNothing | NoSuchObject.
Arguments Goes {A}. Arguments NullPointer {A}. Arguments TextOfNothing {A}. Arguments NoSuchObject {A}.

Section Fate.
  Context {Args : Type}.
  (** of constructor arguments: a name or customization is given; the output length *)
  Variables (custom : Args -> bool) (len : Args -> nat).

  Definition owners := nat -> option owner.
  Definition wput (s : owners) (i : nat) (w : owner) : owners := fun k => if k =? i then Some w else s k.

  Definition created (a : Args) : owner :=
    mkOwner (custom a) (with_part (fun _ => None) (custom a) (Some (mkPart (len a) false))).

  Definition with_object {A} (s : owners) (i : nat) (k : owner -> fate A) : fate A :=
    match s i with Some w => k w | None => NoSuchObject end.
  Definition with_sponge {A} (s : owners) (i : nat) (k : owner -> part -> fate A) : fate A :=
    with_object s i (fun w => match in_use w with Some p => k w p | None => NullPointer end).
  Definition set_done (s : owners) (i : nat) (b : part -> bool) : fate owners :=
    with_sponge s i (fun w p =>
      Goes (wput s i (mkOwner (w_custom w) (with_part (w_parts w) (w_custom w) (Some (mkPart (p_len p) (b p))))))).

  Definition fate1 (c : ocmd Args) (s : owners) : fate owners :=
    match c with
    | Construct i a => Goes (wput s i (created a))
    | Feed i _ => set_done s i p_done
    | Fin i => set_done s i (fun _ => true)
    | Rst i => set_done s i (fun _ => false)
    | Vec i | Uint i _ | Std i => with_sponge s i (fun _ _ => Goes s)
    | Str i => with_sponge s i (fun _ p => if p_done p && negb (p_len p =? 0) then Goes s else TextOfNothing)
    | CopyConstruct i j =>
        with_sponge s j (fun w p => Goes (wput s i (mkOwner (w_custom w) (with_part (fun _ => None) (w_custom w) (Some p)))))
    | MoveConstruct i j =>
        with_object s j (fun w => let (x, y) := exchange nothing w in Goes (wput (wput s j y) i x))
    | CopyAssign i j =>
        with_object s i (fun w => with_object s j (fun v =>
          if i =? j then Goes s
          else match w_parts w (w_custom v), in_use v with
               | Some _, Some p => Goes (wput s i (mkOwner (w_custom v) (with_part (w_parts w) (w_custom v) (Some p))))
               | _, _ => NullPointer
               end))
    | MoveAssign i j =>
        with_object s i (fun w => with_object s j (fun v =>
          if i =? j then Goes s
          else let (x, y) := exchange w v in Goes (wput (wput s j y) i x)))
    end.

  Fixpoint fate_of (p : list (ocmd Args)) (s : owners) : fate owners :=
    match p with
    | [] => Goes s
    | c :: rest => match fate1 c s with Goes s => fate_of rest s | NullPointer => NullPointer | TextOfNothing => TextOfNothing | NoSuchObject => NoSuchObject end
    end.
End Fate.

(** arguments and data of a program are in order; nothing is constructed from itself *)
Definition in_order {Args} (ok_args : Args -> Prop) (ok_item : list N -> Prop) (c : ocmd Args) : Prop :=
  match c with
  | Construct _ a => ok_args a
  | Feed _ d => ok_item d
  | MoveConstruct i j => i <> j
  | CopyConstruct i j => i <> j
  | _ => True
  end.

(** ** A simpler rule that is enough

    Nothing is done with a moved-from object except moving to it; copies are assigned between objects that both have or both lack name and
    customization; the text is asked for after finalize() and not of empty digests. *)
Inductive user_view := NotYet | Gone | Here (custom : bool) (p : part).

Section Careful.
  Context {Args : Type}.
  Variables (custom : Args -> bool) (len : Args -> nat).
  Definition uput (s : nat -> user_view) (i : nat) (v : user_view) : nat -> user_view := fun k => if k =? i then v else s k.

  Inductive careful : list (ocmd Args) -> (nat -> user_view) -> Prop :=
  | ca_nil s : careful [] s
  | ca_construct i a rest s : careful rest (uput s i (Here (custom a) (mkPart (len a) false))) -> careful (Construct i a :: rest) s
  | ca_feed i d rest s c p : s i = Here c p -> careful rest s -> careful (Feed i d :: rest) s
  | ca_fin i rest s c p : s i = Here c p -> careful rest (uput s i (Here c (mkPart (p_len p) true))) -> careful (Fin i :: rest) s
  | ca_reset i rest s c p : s i = Here c p -> careful rest (uput s i (Here c (mkPart (p_len p) false))) -> careful (Rst i :: rest) s
  | ca_vec i rest s c p : s i = Here c p -> careful rest s -> careful (Vec i :: rest) s
  | ca_uint i n rest s c p : s i = Here c p -> careful rest s -> careful (Uint i n :: rest) s
  | ca_std i rest s c p : s i = Here c p -> careful rest s -> careful (Std i :: rest) s
  | ca_str i rest s c p : s i = Here c p -> p_done p = true -> p_len p <> 0 -> careful rest s -> careful (Str i :: rest) s
  | ca_copy i j rest s c p : s j = Here c p -> careful rest (uput s i (Here c p)) -> careful (CopyConstruct i j :: rest) s
  | ca_move i j rest s c p : s j = Here c p -> careful rest (uput (uput s j Gone) i (Here c p)) -> careful (MoveConstruct i j :: rest) s
  | ca_assign i j rest s c p q : s i = Here c q -> s j = Here c p -> careful rest (uput s i (Here c p)) -> careful (CopyAssign i j :: rest) s
  | ca_massign i j rest s c p : i <> j -> s i <> NotYet -> s j = Here c p ->
      careful rest (uput (uput s j Gone) i (Here c p)) -> careful (MoveAssign i j :: rest) s.
End Careful.

(** of cSHAKE arguments (length, name, customization) and of TupleHash arguments (length, customization); a TupleHash
    object always has a name *)
Definition clen (a : Z * list N * list N) : nat := let '(l, _, _) := a in Z.to_nat l.
Definition tlen (a : Z * list N) : nat := Z.to_nat (fst a).
Definition always (a : Z * list N) : bool := true.
