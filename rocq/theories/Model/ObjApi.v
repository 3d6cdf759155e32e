(** Execution of client programs on objects with constructor arguments. *)
From Coq Require Import List NArith Arith Bool.
From Verif.Base Require Import Res.
From Verif.Model Require Import Stream.
From Verif.Spec Require Import Client ObjClient.
Import ListNotations.

Record ObjClass := mkObjClass {
  Args : Type;
  OObj : Type;
  oc_construct : Args -> res OObj;
  oc_feed : list N -> OObj -> res OObj;
  oc_finalize : OObj -> res OObj;
  oc_reset : OObj -> res OObj;
  oc_vector : OObj -> res (list N);
  oc_copy : OObj -> res OObj;                     (* copy constructor *)
  oc_move : OObj -> OObj * OObj;                  (* move constructor: new object, source *)
  oc_assign : OObj -> OObj -> res OObj;           (* copy assignment between different objects *)
  oc_massign : OObj -> OObj -> OObj * OObj        (* move assignment: target, source *)
}.

(** A class all of whose fields are arrays and integers and which declares no copy or move
    operations: the implicit ones copy every field, and a moved-from object keeps its value. *)
Definition value_class {A O : Type} (construct : A -> res O) (add : list N -> O -> res O) (fin : O -> res O)
    (reset : O -> res O) (arr : O -> res (list N)) : ObjClass :=
  {| Args := A; OObj := O; oc_construct := construct; oc_feed := add; oc_finalize := fin; oc_reset := reset;
     oc_vector := arr; oc_copy := Ok; oc_move := fun x => (x, x); oc_assign := fun _ y => Ok y;
     oc_massign := fun _ y => (y, y) |}.

Section Exec.
  Variable C : ObjClass.

  Definition ostore := nat -> option (OObj C).
  Definition sput (s : ostore) (i : nat) (x : OObj C) : ostore := fun j => if j =? i then Some x else s j.

  (** the object in a slot; using a slot without an object is an ill-formed program *)
  Definition sget (s : ostore) (i : nat) : res (OObj C) :=
    match s i with Some x => Ok x | None => Ub UninitRead end.

  Definition update (s : ostore) (i : nat) (f : OObj C -> res (OObj C)) : res (ostore * option obs) :=
    let! x := sget s i in let! y := f x in Ok (sput s i y, None).
  Definition observe (s : ostore) (i : nat) (f : list N -> res obs) : res (ostore * option obs) :=
    let! x := sget s i in let! d := oc_vector C x in let! w := f d in Ok (s, Some w).

  (** assignment operators compare the addresses first      cshake.h:211, 225 *)
  Definition exec_ocmd (c : ocmd (Args C)) (s : ostore) : res (ostore * option obs) :=
    match c with
    | Construct i a => let! x := oc_construct C a in Ok (sput s i x, None)
    | Feed i d => update s i (oc_feed C d)
    | Fin i => update s i (oc_finalize C)
    | Rst i => update s i (oc_reset C)
    | Vec i => observe s i (fun d => Ok (OBytes d))
    | Str i => observe s i (fun d => let! t := to_string d in Ok (OChars t))
    | Uint i n => observe s i (fun d => let! v := to_uint n d in Ok (ONum v))
    | Std i => observe s i (fun d => let! v := std_hash d in Ok (ONum v))
    | CopyConstruct i j => let! y := sget s j in let! x := oc_copy C y in Ok (sput s i x, None)
    | MoveConstruct i j => let! y := sget s j in let (x, y) := oc_move C y in Ok (sput (sput s j y) i x, None)
    | CopyAssign i j =>
        let! x := sget s i in let! y := sget s j in
        if i =? j then Ok (s, None) else let! x := oc_assign C x y in Ok (sput s i x, None)
    | MoveAssign i j =>
        let! x := sget s i in let! y := sget s j in
        if i =? j then Ok (s, None) else let (x, y) := oc_massign C x y in Ok (sput (sput s j y) i x, None)
    end.

  Fixpoint oexec (p : list (ocmd (Args C))) (s : ostore) : res (list obs * ostore) :=
    match p with
    | [] => Ok ([], s)
    | c :: rest =>
        let! r := exec_ocmd c s in
        let! t := oexec rest (fst r) in
        Ok (match snd r with Some w => w :: fst t | None => fst t end, snd t)
    end.

  (** construct, feed, finalize, read *)
  Definition ohash (a : Args C) (items : list (list N)) : res (list N) :=
    let! x := oc_construct C a in
    let! x := foldM (oc_feed C) items x in
    let! x := oc_finalize C x in
    oc_vector C x.
End Exec.
