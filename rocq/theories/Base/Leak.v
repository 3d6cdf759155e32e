(** Outcomes with what an observer of the machine sees on the way: the index of every array access and the direction of
    every branch, in order.  The definitions have the names of Base/Res.v, so that model text can be read with either
    meaning (tools/gen_leak.py).  Which array is accessed need not be recorded: it follows from the place in the code,
    and the place follows from the branches taken before. *)
From Coq Require Import List NArith Arith Bool.
From Verif.Base Require Res.
Import ListNotations.

Inductive event :=
| Read (i : nat)
| Write (i : nat)
| Branch (taken : bool).

Definition res (A : Type) : Type := list event * Res.res A.

Definition Ok {A} (a : A) : res A := ([], Res.Ok a).
Definition Throw {A} (e : Res.exn) : res A := ([], Res.Throw e).
Definition Ub {A} (u : Res.ub_kind) : res A := ([], Res.Ub u).

(** the event happens, then the rest *)
Definition tell {A} (e : event) (r : res A) : res A := (e :: fst r, snd r).
Definition trace {A} (r : res A) : list event := fst r.
Definition outcome {A} (r : res A) : Res.res A := snd r.

Definition bind {A B} (r : res A) (k : A -> res B) : res B :=
  (fst r ++ match snd r with Res.Ok a => fst (k a) | _ => [] end, Res.bind (snd r) (fun a => snd (k a))).

Notation "'let!' x ':=' r 'in' k" := (bind r (fun x => k))
  (at level 200, x pattern, r at level 100, k at level 200, right associativity).

(** if in the C++ code *)
Notation "'if!' c 'then' t 'else' e" := (tell (Branch c) (if c then t else e))
  (at level 200, right associativity).

(** a loop with a condition at its head *)
Fixpoint for_ {S : Type} (from n : nat) (body : nat -> S -> res S) (s : S) : res S :=
  match n with
  | O => tell (Branch false) (Ok s)
  | Datatypes.S n' => tell (Branch true) (let! s' := body from s in for_ (Datatypes.S from) n' body s')
  end.

Definition aget {A} (l : list A) (i : nat) : res A := tell (Read i) ([], Res.aget l i).
Definition aget_back {A} (l : list A) (i k : nat) : res A := tell (Read (i - k)) ([], Res.aget_back l i k).
Definition aset {A} (l : list A) (i : nat) (v : A) : res (list A) := tell (Write i) ([], Res.aset l i v).

Fixpoint mapM {A B} (f : A -> res B) (l : list A) : res (list B) :=
  match l with
  | [] => Ok []
  | x :: t => let! y := f x in let! ys := mapM f t in Ok (y :: ys)
  end.

(** a loop over the elements of a range *)
Fixpoint foldM {A S} (f : A -> S -> res S) (l : list A) (s : S) : res S :=
  match l with
  | [] => tell (Branch false) (Ok s)
  | x :: t => tell (Branch true) (let! s' := f x s in foldM f t s')
  end.

Definition iget {A} (l : list (option A)) (i : nat) : res A := tell (Read i) ([], Res.iget l i).
