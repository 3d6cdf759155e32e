(** Programs that differ at most in the contents of the data they pass, not in its sizes nor in anything else. *)
From Coq Require Import List NArith.
From Verif.Spec Require Import Client.
Import ListNotations.

Inductive same_op : op -> op -> Prop :=
| so_data d e : length d = length e -> same_op (AddData d) (AddData e)
| so_other o : same_op o o.
Inductive same_cmd : cmd -> cmd -> Prop :=
| sc_on i o o' : same_op o o' -> same_cmd (On i o) (On i o')
| sc_copy i j : same_cmd (CopyTo i j) (CopyTo i j).
Definition same_shape : list cmd -> list cmd -> Prop := Forall2 same_cmd.

(** toString() is not called *)
Definition no_text (p : list cmd) : Prop := forall i, ~ In (On i ToString) p.

(** the number of leading elements that agree *)
Fixpoint common (l r : list N) : nat :=
  match l, r with
  | a :: l, b :: r => if N.eqb a b then S (common l r) else 0
  | _, _ => 0
  end.

(** which hexadecimal digits of the bytes are letters *)
Definition letters (d : list N) : list bool := flat_map (fun b => [N.leb 10 (b / 16); N.leb 10 (b mod 16)]) d.
