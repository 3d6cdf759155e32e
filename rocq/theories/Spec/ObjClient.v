(** What a user may do with objects that are constructed from arguments and may be copied
    and moved (cSHAKE, TupleHash), and what they are promised to see. *)
From Coq Require Import List NArith Arith Bool.
From Verif.Spec Require Import Words Client.
Import ListNotations.

Section ObjClient.
  (** constructor arguments *)
  Context {Args : Type}.

  Inductive ocmd :=
  | Construct (i : nat) (a : Args)
  | Feed (i : nat) (d : list N)       (* addData, or nextData for tuples *)
  | Fin (i : nat)
  | Rst (i : nat)
  | Vec (i : nat)
  | Str (i : nat)
  | Uint (i nbytes : nat)
  | Std (i : nat)                     (* std::hash<T>()(object i) *)
  | CopyConstruct (dst src : nat)     (* T dst(src) *)
  | MoveConstruct (dst src : nat)     (* T dst(std::move(src)) *)
  | CopyAssign (dst src : nat)        (* dst = src *)
  | MoveAssign (dst src : nat).       (* dst = std::move(src) *)

  (** an object: its arguments, what it was fed, whether it is finalized *)
  Record oobj := mkO { o_args : Args; o_items : list (list N); o_done : bool }.
  Inductive slot := NoObject | Moved | Live (o : oobj).

  Variable hash : Args -> list (list N) -> list N.
  (** arguments and items for which something is promised *)
  Variable ok_args : Args -> Prop.
  Variable ok_item : list N -> Prop.
  (** which objects may be reset, and which target may be assigned an object with given arguments *)
  Variable may_reset : Args -> Prop.
  Variable may_assign : slot -> Args -> Prop.

  Definition oput (s : nat -> slot) (i : nat) (x : slot) : nat -> slot := fun j => if j =? i then x else s j.

  Inductive ostep : ocmd -> (nat -> slot) -> (nat -> slot) -> option obs -> Prop :=
  | os_construct i a s : ok_args a -> ostep (Construct i a) s (oput s i (Live (mkO a [] false))) None
  | os_feed i d a l s : s i = Live (mkO a l false) -> ok_item d ->
      ostep (Feed i d) s (oput s i (Live (mkO a (l ++ [d]) false))) None
  | os_fin i a l s : s i = Live (mkO a l false) -> ostep (Fin i) s (oput s i (Live (mkO a l true))) None
  | os_reset i a l b s : s i = Live (mkO a l b) -> may_reset a ->
      ostep (Rst i) s (oput s i (Live (mkO a [] false))) None
  | os_vec i a l s : s i = Live (mkO a l true) -> ostep (Vec i) s s (Some (OBytes (hash a l)))
  | os_str i a l s : s i = Live (mkO a l true) -> hash a l <> [] ->
      ostep (Str i) s s (Some (OChars (hex_text (hash a l))))
  | os_uint i n a l s : s i = Live (mkO a l true) ->
      ostep (Uint i n) s s (Some (ONum (leading_number n (hash a l))))
  | os_std i a l s : s i = Live (mkO a l true) ->
      ostep (Std i) s s (Some (ONum (leading_number 8 (hash a l))))
  | os_copy i j o s : s j = Live o -> ostep (CopyConstruct i j) s (oput s i (Live o)) None
  | os_move i j o s : i <> j -> s j = Live o ->
      ostep (MoveConstruct i j) s (oput (oput s j Moved) i (Live o)) None
  | os_assign i j o s : s j = Live o -> may_assign (s i) (o_args o) ->
      ostep (CopyAssign i j) s (oput s i (Live o)) None
  | os_massign i j o s : i <> j -> s j = Live o -> s i <> NoObject ->
      ostep (MoveAssign i j) s (oput (oput s j Moved) i (Live o)) None.

  Inductive orun : list ocmd -> (nat -> slot) -> list obs -> (nat -> slot) -> Prop :=
  | or_nil s : orun [] s [] s
  | or_cons c rest s s1 w os s' :
      ostep c s s1 w -> orun rest s1 os s' ->
      orun (c :: rest) s (match w with Some x => x :: os | None => os end) s'.
End ObjClient.
Arguments ocmd : clear implicits.
Arguments oobj : clear implicits.
Arguments slot : clear implicits.
