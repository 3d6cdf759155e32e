(** cSHAKE and TupleHash with what an observer of array indices and branches sees of each member call, and programs on such
    objects.  The functions are those of Model/Leak/, put together as in Model/CShake.v, Model/TupleHash.v and Model/ObjApi.v.
    Not recorded, beside what Model/LeakLibrary.v names: value == 0 in the length encodings and the emptiness tests of the
    constructor, which depend on lengths only; which lines std::log2 executes inside. *)
From Coq Require Import List NArith Arith Bool.
From Verif.Base Require Res.
From Verif.Base Require Import Leak.
From Verif.Spec Require Import Client ObjClient.
From Verif.Model Require Import ObjApi.
From Verif.Model Require CShake TupleHash.
From Verif.Model.Leak Require LkStream LkCShake LkTupleHash.
Import ListNotations.
Local Open Scope N_scope.

Record OLeaky (A O : Type) := mkOLeaky {
  ol_construct : A -> res O;
  ol_feed : list N -> O -> res O;
  ol_finalize : O -> res O;
  ol_reset : O -> res O;
  ol_vector : O -> res (list N);
  ol_copy : O -> res O;
  ol_move : O -> res (O * O);
  ol_assign : O -> O -> res O;
  ol_massign : O -> O -> res (O * O)
}.
Arguments ol_construct {A O}. Arguments ol_feed {A O}. Arguments ol_finalize {A O}. Arguments ol_reset {A O}.
Arguments ol_vector {A O}. Arguments ol_copy {A O}. Arguments ol_move {A O}. Arguments ol_assign {A O}. Arguments ol_massign {A O}.

(** client programs, as exec_ocmd and oexec in Model/ObjApi.v *)
Section Run.
  Variable C : ObjClass.
  Variable L : OLeaky (Args C) (OObj C).

  Definition oget (s : ostore C) (i : nat) : res (OObj C) := match s i with Some x => Ok x | None => Ub Res.UninitRead end.
  Definition oupdate (s : ostore C) (i : nat) (f : OObj C -> res (OObj C)) : res (ostore C * option obs) :=
    let! x := oget s i in let! y := f x in Ok (sput C s i y, None).
  Definition oobserve (s : ostore C) (i : nat) (f : list N -> res obs) : res (ostore C * option obs) :=
    let! x := oget s i in let! d := ol_vector L x in let! w := f d in Ok (s, Some w).

  (** the assignment operators compare the addresses first      cshake.h:211, 225 *)
  Definition run_ocmd (c : ocmd (Args C)) (s : ostore C) : res (ostore C * option obs) :=
    match c with
    | Construct i a => let! x := ol_construct L a in Ok (sput C s i x, None)
    | Feed i d => oupdate s i (ol_feed L d)
    | Fin i => oupdate s i (ol_finalize L)
    | Rst i => oupdate s i (ol_reset L)
    | Vec i => oobserve s i (fun d => Ok (OBytes d))
    | Str i => oobserve s i (fun d => let! t := LkStream.to_string d in Ok (OChars t))
    | Uint i n => oobserve s i (fun d => let! v := LkStream.to_uint n d in Ok (ONum v))
    | Std i => oobserve s i (fun d => let! v := LkStream.std_hash d in Ok (ONum v))
    | CopyConstruct i j => let! y := oget s j in let! x := ol_copy L y in Ok (sput C s i x, None)
    | MoveConstruct i j => let! y := oget s j in let! (x, y) := ol_move L y in Ok (sput C (sput C s j y) i x, None)
    | CopyAssign i j =>
        let! x := oget s i in let! y := oget s j in
        if! Nat.eqb i j then Ok (s, None) else let! x := ol_assign L x y in Ok (sput C s i x, None)
    | MoveAssign i j =>
        let! x := oget s i in let! y := oget s j in
        if! Nat.eqb i j then Ok (s, None) else let! (x, y) := ol_massign L x y in Ok (sput C (sput C s j y) i x, None)
    end.

  Fixpoint orun (p : list (ocmd (Args C))) (s : ostore C) : res (list obs * ostore C) :=
    match p with
    | [] => Ok ([], s)
    | c :: rest =>
        let! r := run_ocmd c s in
        let! t := orun rest (fst r) in
        Ok (match snd r with Some w => w :: fst t | None => fst t end, snd t)
    end.
End Run.

Section Classes.
  Variables (log2 : N -> N) (R : nat) (sufS sufK : N) (P : N) (dbg : bool).
  Definition cshake : OLeaky (BinNums.Z * list N * list N) CShake.Obj :=
    {| ol_construct := fun a => let '(l, n, c) := a in LkCShake.construct log2 R sufS sufK P dbg l n c;
       ol_feed := LkCShake.addData R sufS sufK dbg;
       ol_finalize := LkCShake.finalize R sufS sufK dbg;
       ol_reset := LkCShake.reset sufS sufK;
       ol_vector := LkCShake.toVector;
       ol_copy := LkCShake.copy_construct;
       ol_move := LkCShake.move_construct;
       ol_assign := LkCShake.copy_assign;
       ol_massign := LkCShake.move_assign |}.
  Definition tuple_hash : OLeaky (BinNums.Z * list N) TupleHash.Obj :=
    {| ol_construct := fun a => let '(l, c) := a in LkTupleHash.construct log2 R sufS sufK P dbg l c;
       ol_feed := LkTupleHash.nextData log2 R sufS sufK dbg;
       ol_finalize := LkTupleHash.finalize log2 R sufS sufK dbg;
       ol_reset := LkTupleHash.reset sufS sufK;
       ol_vector := LkTupleHash.toVector;
       ol_copy := LkTupleHash.copy_construct;
       ol_move := LkTupleHash.move_construct;
       ol_assign := LkTupleHash.copy_assign;
       ol_massign := LkTupleHash.move_assign |}.
End Classes.

(** CSHAKE_128, CSHAKE_256, TupleHash_128, TupleHash_256      cshake.h:345-346, tuple_hash.h:244-245 *)
Definition cshake128 (log2 : N -> N) (dbg : bool) := cshake log2 (1344 / 8) 0x1F 0x04 (1344 / 8) dbg.
Definition cshake256 (log2 : N -> N) (dbg : bool) := cshake log2 (1088 / 8) 0x1F 0x04 (1088 / 8) dbg.
Definition tuple128 (log2 : N -> N) (dbg : bool) := tuple_hash log2 (1344 / 8) 0x1F 0x04 (1344 / 8) dbg.
Definition tuple256 (log2 : N -> N) (dbg : bool) := tuple_hash log2 (1088 / 8) 0x1F 0x04 (1088 / 8) dbg.

(** programs that start without objects *)
Definition seen_c128 (log2 : N -> N) (dbg : bool) p := orun (CShake.cls128 log2 dbg) (cshake128 log2 dbg) p (fun _ => None).
Definition seen_c256 (log2 : N -> N) (dbg : bool) p := orun (CShake.cls256 log2 dbg) (cshake256 log2 dbg) p (fun _ => None).
Definition seen_t128 (log2 : N -> N) (dbg : bool) p := orun (TupleHash.cls128 log2 dbg) (tuple128 log2 dbg) p (fun _ => None).
Definition seen_t256 (log2 : N -> N) (dbg : bool) p := orun (TupleHash.cls256 log2 dbg) (tuple256 log2 dbg) p (fun _ => None).
