(** Programs on cSHAKE and TupleHash objects that differ at most in the contents of strings and data, not in their sizes nor
    in anything else; and the size of such a program. *)
From Coq Require Import List NArith ZArith.
From Verif.Spec Require Import Client ObjClient.
Import ListNotations.

Section Shape.
  Context {A : Type} (same_args : A -> A -> Prop) (args_size args_digest : A -> nat).
  Inductive plain_ocmd : ocmd A -> Prop :=
  | sf_fin i : plain_ocmd (Fin i)
  | sf_rst i : plain_ocmd (Rst i)
  | sf_vec i : plain_ocmd (Vec i)
  | sf_str i : plain_ocmd (Str i)
  | sf_uint i n : plain_ocmd (Uint i n)
  | sf_std i : plain_ocmd (Std i)
  | sf_copy i j : plain_ocmd (CopyConstruct i j)
  | sf_move i j : plain_ocmd (MoveConstruct i j)
  | sf_assign i j : plain_ocmd (CopyAssign i j)
  | sf_massign i j : plain_ocmd (MoveAssign i j).
  Inductive same_ocmd : ocmd A -> ocmd A -> Prop :=
  | sh_construct i a b : same_args a b -> same_ocmd (Construct i a) (Construct i b)
  | sh_feed i d e : length d = length e -> same_ocmd (Feed i d) (Feed i e)
  | sh_other c : plain_ocmd c -> same_ocmd c c.
  Definition same_oshape : list (ocmd A) -> list (ocmd A) -> Prop := Forall2 same_ocmd.

  (** toString() is not called *)
  Definition no_otext (p : list (ocmd A)) : Prop := forall i, ~ In (Str i) p.

  (** a unit for every call, one for every byte of data passed and one for every byte of the constructor arguments *)
  Definition ocmd_size (c : ocmd A) : nat :=
    match c with
    | Construct _ a => S (args_size a)
    | Feed _ d => S (length d)
    | _ => 1
    end.
  Definition oprogram_size (p : list (ocmd A)) : nat := list_sum (map ocmd_size p).
  (** the greatest digest length that the program asks for *)
  Definition longest (p : list (ocmd A)) : nat :=
    list_max (map (fun c => match c with Construct _ a => args_digest a | _ => 0 end) p).
End Shape.

(** cSHAKE: digest length, name, customization; TupleHash: digest length, customization *)
Definition cshake_args (a b : Z * list N * list N) : Prop :=
  fst (fst a) = fst (fst b) /\ length (snd (fst a)) = length (snd (fst b)) /\ length (snd a) = length (snd b).
Definition tuple_args (a b : Z * list N) : Prop := fst a = fst b /\ length (snd a) = length (snd b).
Definition cshake_size (a : Z * list N * list N) : nat := length (snd (fst a)) + length (snd a).
Definition tuple_size (a : Z * list N) : nat := length (snd a).
Definition cshake_digest (a : Z * list N * list N) : nat := Z.to_nat (fst (fst a)).
Definition tuple_digest (a : Z * list N) : nat := Z.to_nat (fst a).
