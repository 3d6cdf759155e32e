(** std::swap of two objects, and programs with the roles of two objects exchanged. *)
From Coq Require Import List Arith Bool.
From Verif.Spec Require Import Client ObjClient.
Import ListNotations.

(** the other one of [i] and [j] *)
Definition other (i j n : nat) : nat := if n =? i then j else if n =? j then i else n.

(** ** objects that are constructed and moved *)
Section Objects.
  Context {A : Type}.
  Definition rename (f : nat -> nat) (c : ocmd A) : ocmd A :=
    match c with
    | Construct i a => Construct (f i) a
    | Feed i d => Feed (f i) d
    | Fin i => Fin (f i)
    | Rst i => Rst (f i)
    | Vec i => Vec (f i)
    | Str i => Str (f i)
    | Uint i n => Uint (f i) n
    | Std i => Std (f i)
    | CopyConstruct i j => CopyConstruct (f i) (f j)
    | MoveConstruct i j => MoveConstruct (f i) (f j)
    | CopyAssign i j => CopyAssign (f i) (f j)
    | MoveAssign i j => MoveAssign (f i) (f j)
    end.
  Definition slots (c : ocmd A) : list nat :=
    match c with
    | Construct i _ | Feed i _ | Fin i | Rst i | Vec i | Str i | Uint i _ | Std i => [i]
    | CopyConstruct i j | MoveConstruct i j | CopyAssign i j | MoveAssign i j => [i; j]
    end.
  Definition avoids (t : nat) (c : ocmd A) : Prop := ~ In t (slots c).

  (** T tmp(std::move(a)); a = std::move(b); b = std::move(tmp); *)
  Definition swap (t i j : nat) : list (ocmd A) := [MoveConstruct t i; MoveAssign i j; MoveAssign j t].
End Objects.

(** ** objects that are values *)
Definition rename_cmd (f : nat -> nat) (c : cmd) : cmd :=
  match c with On i o => On (f i) o | CopyTo i j => CopyTo (f i) (f j) end.
Definition cmd_slots (c : cmd) : list nat := match c with On i _ => [i] | CopyTo i j => [i; j] end.
Definition cmd_avoids (t : nat) (c : cmd) : Prop := ~ In t (cmd_slots c).
(** a moved-from object of such a class is a copy of the other *)
Definition cmd_swap (t i j : nat) : list cmd := [CopyTo t i; CopyTo i j; CopyTo j t].

(** several in a row: sorting, reversing, shuffling *)
Fixpoint swaps {C} (sw : nat -> nat -> nat -> list C) (t : nat) (ws : list (nat * nat)) : list C :=
  match ws with [] => [] | (i, j) :: ws => sw t i j ++ swaps sw t ws end.
(** where slot [n] of the end was at the beginning *)
Fixpoint origin (ws : list (nat * nat)) (n : nat) : nat :=
  match ws with [] => n | (i, j) :: ws => other i j (origin ws n) end.
