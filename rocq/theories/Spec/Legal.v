(** Which programs the interface comments allow, and the part of a program that concerns one object.

    "after this, only operator T(), reset(), toArray(), toString(), toVector() are available"
    (sha1.h:212): an object absorbs until finalize() and can be read out from then on until
    reset().  Nothing here mentions messages or digests. *)
From Coq Require Import List NArith Arith Bool.
From Verif.Spec Require Import Words Client.
Import ListNotations.

Section Legal.
  (** the class produces digests of at least one byte (toString needs one) *)
  Variable nonempty : Prop.

  (** [legal_op o b b']: [o] is allowed on an object that is finalized ([b]) or not, which it then is ([b']) *)
  Inductive legal_op : op -> bool -> bool -> Prop :=
  | lo_add d : span_ok d -> legal_op (AddData d) false false
  | lo_fin : legal_op Finalize false true
  | lo_reset b : legal_op Reset b false
  | lo_array : legal_op ToArray true true
  | lo_vector : legal_op ToVector true true
  | lo_string : nonempty -> legal_op ToString true true
  | lo_uint n : legal_op (ToUint n) true true
  | lo_std : legal_op StdHash true true.

  Definition set_flag (s : nat -> bool) (i : nat) (b : bool) : nat -> bool := fun j => if j =? i then b else s j.

  (** [legal p s s']: program [p] is allowed when the finalized objects are those of [s]; afterwards they are those of [s'] *)
  Inductive legal : list cmd -> (nat -> bool) -> (nat -> bool) -> Prop :=
  | le_nil s : legal [] s s
  | le_on i o rest s b s' : legal_op o (s i) b -> legal rest (set_flag s i b) s' -> legal (On i o :: rest) s s'
  | le_copy i j rest s s' : legal rest (set_flag s i (s j)) s' -> legal (CopyTo i j :: rest) s s'.

  (** allowed from freshly constructed objects on *)
  Definition legal_program (p : list cmd) : Prop := exists s, legal p (fun _ => false) s.
End Legal.

(** The calls that make up the history of one object, followed backwards: the calls on it, and
    before a copy the calls on the object it was copied from. *)
Fixpoint own_back (rp : list cmd) (i : nat) : list op :=
  match rp with
  | [] => []
  | On k o :: rest => if k =? i then o :: own_back rest i else own_back rest i
  | CopyTo k j :: rest => if k =? i then own_back rest j else own_back rest i
  end.
Definition own_calls (p : list cmd) (i : nat) : list op := rev (own_back (rev p) i).

(** the bytes that a series of calls on one object leaves in it: everything since the last reset *)
Fixpoint bytes_back (ro : list op) : list N :=
  match ro with
  | [] => []
  | Reset :: _ => []
  | AddData d :: rest => bytes_back rest ++ d
  | _ :: rest => bytes_back rest
  end.
Definition fed (ops : list op) : list N := bytes_back (rev ops).

(** Programs of any kind, legal or not, whose data are bytes. *)
Definition op_bytes (o : op) : Prop := match o with AddData d => bytes_ok d | _ => True end.
Definition program_bytes (p : list cmd) : Prop := Forall (fun c => match c with On _ o => op_bytes o | CopyTo _ _ => True end) p.
