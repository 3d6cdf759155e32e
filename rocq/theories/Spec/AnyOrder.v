(** Programs that call the members of hash objects in any order at all: data may be added to a finalized object, an
    object finalized twice, a digest read before finalize().

    What is left to ask of a program: addData() is given bytes, and the text of an empty digest is not asked for.  Some
    classes have no digest at all until finalize() has run; for these the text may be asked for from then on until reset(). *)
From Coq Require Import List NArith Arith Bool.
From Verif.Spec Require Import Words Client.
Import ListNotations.

Definition reads (o : op) : bool :=
  match o with ToArray | ToVector | ToString | ToUint _ | StdHash => true | _ => false end.

Section AnyOrder.
  (** a digest can be read at all; it is there from the beginning; it has a byte *)
  Variables readable early nonempty : bool.

  (** [b]: finalize() has run since the last reset() *)
  Definition op_possible (o : op) (b : bool) : Prop :=
    match o with AddData d => span_ok d | ToString => nonempty = true /\ (early = true \/ b = true) | _ => True end /\
    (reads o = true -> readable = true).
  Definition finalized_by (o : op) (b : bool) : bool :=
    match o with Finalize => true | Reset => false | _ => b end.

  (** [possible p s]: [s] tells which objects are finalized *)
  Fixpoint possible (p : list cmd) (s : nat -> bool) : Prop :=
    match p with
    | [] => True
    | On i o :: rest => op_possible o (s i) /\ possible rest (fun k => if k =? i then finalized_by o (s i) else s k)
    | CopyTo i j :: rest => possible rest (fun k => if k =? i then s j else s k)
    end.
  Definition possible_program (p : list cmd) : Prop := possible p (fun _ => false).
End AnyOrder.

(** Calls that leave a digest [d] of [n] bytes in place: all but reset(), where addData() is given bytes and the text is
    asked for only if there is a byte.  What each call shows of [d]. *)
Definition leaves (n : nat) (o : op) : Prop :=
  match o with AddData x => span_ok x | Reset => False | ToString => n <> 0 | _ => True end.
Definition shows (d : list N) (o : op) : list obs :=
  match o with
  | ToArray | ToVector => [OBytes d]
  | ToString => [OChars (hex_text d)]
  | ToUint k => [ONum (leading_number k d)]
  | StdHash => [ONum (leading_number 8 d)]
  | AddData _ | Finalize | Reset => []
  end.
