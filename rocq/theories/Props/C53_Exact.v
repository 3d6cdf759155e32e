(** C53: sponge objects in any order of calls: exactly which bytes every call shows. *)
From Coq Require Import String List NArith ZArith Arith Bool.
From Verif.Base Require Import Res.
From Verif.Spec Require Import Words Client ObjClient Log2 KeccakTypes Sp800185 CShakeArgs Ownership Tape.
From Verif.Model Require Import Buffer Stream ObjApi KeccakObj.
From Verif.Tests Require Import Kit.
From Verif.Spec Require Keccak.
From Verif.Model Require CShake TupleHash.
From Verif.Proof Require TapeObj TapeLaws Log2Witness.
Import ListNotations.
Local Open Scope N_scope.

(** Every program over SHA-3 or SHAKE objects of one base class: addData after finalize, finalize again, use of moved-from objects, anything. *)
Theorem C53_sha3 : forall t dbg p, Forall (in_order length_ok span_ok) p ->
  match told (sha3_kind t) p with
  | Goes (os, _) => exists st, oexec (objects t dbg) p (fun _ => None) = Ok (os, st)
  | NullPointer => oexec (objects t dbg) p (fun _ => None) = Ub NullDeref
  | TextOfNothing => oexec (objects t dbg) p (fun _ => None) = Ub EmptyFront
  | NoSuchObject => oexec (objects t dbg) p (fun _ => None) = Ub UninitRead
  end.
Proof. exact Proof.TapeObj.sha3_told. Qed.
Print Assumptions C53_sha3.

(** The same for cSHAKE objects with and without name and customization *)
Theorem C53_cshake : forall lg dbg p, log2_accurate lg -> Forall (in_order ok_cargs span_ok) p ->
  let says (f : fate (list obs * holdings (cshake_kind rate128))) (r : res (list obs * (nat -> option Model.CShake.Obj))) :=
    match f with
    | Goes (os, _) => exists st, r = Ok (os, st)
    | NullPointer => r = Ub NullDeref | TextOfNothing => r = Ub EmptyFront | NoSuchObject => r = Ub UninitRead
    end in
  says (told (cshake_kind rate128) p) (oexec (Model.CShake.cls128 lg dbg) p (fun _ => None)) /\
  says (told (cshake_kind rate256) p) (oexec (Model.CShake.cls256 lg dbg) p (fun _ => None)).
Proof. exact Proof.TapeObj.cshake_told. Qed.
Print Assumptions C53_cshake.

(** and for TupleHash objects *)
Theorem C53_tuplehash : forall lg dbg p, log2_accurate lg -> Forall (in_order ok_targs short) p ->
  let says (f : fate (list obs * holdings (tuple_kind rate128))) (r : res (list obs * (nat -> option Model.TupleHash.Obj))) :=
    match f with
    | Goes (os, _) => exists st, r = Ok (os, st)
    | NullPointer => r = Ub NullDeref | TextOfNothing => r = Ub EmptyFront | NoSuchObject => r = Ub UninitRead
    end in
  says (told (tuple_kind rate128) p) (oexec (Model.TupleHash.cls128 lg dbg) p (fun _ => None)) /\
  says (told (tuple_kind rate256) p) (oexec (Model.TupleHash.cls256 lg dbg) p (fun _ => None)).
Proof. exact Proof.TapeObj.tuple_told. Qed.
Print Assumptions C53_tuplehash.

(** ** what follows *)

(** Whatever is read at any moment comes from a digest that is empty or the output of the standard's sponge for some input: never a half-made
    digest, never the inner state. *)
Theorem C53_genuine : forall t dbg p os st, Forall (in_order length_ok span_ok) p -> oexec (objects t dbg) p (fun _ => None) = Ok (os, st) ->
  Forall (fun w => exists d, (d = [] \/ exists n m, d = output t n m) /\
    (w = OBytes d \/ d <> [] /\ w = OChars (hex_text d) \/ exists n, w = ONum (leading_number n d))) os.
Proof. exact Proof.TapeLaws.sha3_reads. Qed.
Print Assumptions C53_genuine.

Theorem C53_genuine_cshake : forall lg dbg p os (st : nat -> option Model.CShake.Obj), log2_accurate lg -> Forall (in_order ok_cargs span_ok) p ->
  let genuine r := Forall (fun w => exists d, (exists custom, d = [] \/ exists n m, d = squeezed r (cshake_suffix custom) n m) /\
    (w = OBytes d \/ d <> [] /\ w = OChars (hex_text d) \/ exists n, w = ONum (leading_number n d))) os in
  (oexec (Model.CShake.cls128 lg dbg) p (fun _ => None) = Ok (os, st) -> genuine rate128) /\
  (oexec (Model.CShake.cls256 lg dbg) p (fun _ => None) = Ok (os, st) -> genuine rate256).
Proof. exact Proof.TapeLaws.cshake_reads. Qed.
Print Assumptions C53_genuine_cshake.

Theorem C53_genuine_tuplehash : forall lg dbg p os (st : nat -> option Model.TupleHash.Obj), log2_accurate lg -> Forall (in_order ok_targs short) p ->
  let genuine r := Forall (fun w => exists d, (exists custom, d = [] \/ exists n m, d = squeezed r (cshake_suffix custom) n m) /\
    (w = OBytes d \/ d <> [] /\ w = OChars (hex_text d) \/ exists n, w = ONum (leading_number n d))) os in
  (oexec (Model.TupleHash.cls128 lg dbg) p (fun _ => None) = Ok (os, st) -> genuine rate128) /\
  (oexec (Model.TupleHash.cls256 lg dbg) p (fun _ => None) = Ok (os, st) -> genuine rate256).
Proof. exact Proof.TapeLaws.tuple_reads. Qed.
Print Assumptions C53_genuine_tuplehash.

(** After any history reset() makes a SHA-3 or SHAKE object good again. *)
Theorem C53_recovers : forall t dbg p os s i x m, Forall (in_order length_ok span_ok) p -> span_ok m ->
  told (sha3_kind t) p = Goes (os, s) -> s i = Some x ->
  exists st, oexec (objects t dbg) (p ++ [Rst i; Feed i m; Fin i; Vec i]) (fun _ => None) = Ok (os ++ [OBytes (output t (t_len x) m)], st).
Proof. exact Proof.TapeLaws.sha3_recovers. Qed.
Print Assumptions C53_recovers.

(** A moved-from SHA-3 or SHAKE object has lost its digest but still holds all it had absorbed: finalize() makes a digest of that. *)
Theorem C53_moved : forall t dbg p os s i j x, Forall (in_order length_ok span_ok) p ->
  told (sha3_kind t) p = Goes (os, s) -> s j = Some x -> i <> j ->
  exists st, oexec (objects t dbg) (p ++ [MoveConstruct i j; Vec j; Fin j; Vec j]) (fun _ => None) =
    Ok (os ++ [OBytes []; OBytes (output t (t_len x) (t_in x))], st).
Proof. exact Proof.TapeLaws.sha3_moved. Qed.
Print Assumptions C53_moved.

(** moved before finalize(), both objects give the digest of the data; moved afterwards, the source gives the digest of the data with
    padding behind it (and, for outputs of several blocks, blocks of zeros) *)
Theorem C53_moved_early : forall t dbg d m, length_ok d -> span_ok m ->
  exists st, oexec (objects t dbg) ([Construct 0 d; Feed 0 m] ++ [MoveConstruct 1 0; Vec 0; Fin 0; Vec 0]) (fun _ => None) =
    Ok ([OBytes []; OBytes (output t (Z.to_nat d) m)], st).
Proof.
  intros t dbg d m Hd Hm. refine (C53_moved t dbg [Construct 0 d; Feed 0 m] [] _ 1%nat 0%nat (t_feed m (t_new (Z.to_nat d))) _ eq_refl eq_refl _); [|discriminate].
  repeat constructor; first [apply Hd | apply Hm].
Qed.
Print Assumptions C53_moved_early.

Theorem C53_moved_late : forall t dbg d m, length_ok d -> span_ok m ->
  exists st, oexec (objects t dbg) ([Construct 0 d; Feed 0 m; Fin 0] ++ [MoveConstruct 1 0; Vec 0; Fin 0; Vec 0]) (fun _ => None) =
    Ok ([OBytes []; OBytes (output t (Z.to_nat d) (m ++ closing (rate t) (suffix t) m ++
      repeat 0 ((Z.to_nat d - 1) / (rate t / 8) * (rate t / 8))))], st).
Proof.
  intros t dbg d m Hd Hm.
  refine (C53_moved t dbg [Construct 0 d; Feed 0 m; Fin 0] [] _ 1%nat 0%nat (t_finalize (rate t) (suffix t) (t_feed m (t_new (Z.to_nat d)))) _ eq_refl eq_refl _); [|discriminate].
  repeat constructor; first [apply Hd | apply Hm].
Qed.
Print Assumptions C53_moved_late.

(** ** cases *)

(** "abc", finalized, moved away, finalized again: the SHA3-256 digest of "abc" 06 00 ... 00 80; the new object keeps its digest *)
Example C53_case_late :
  match oexec (objects Sha3_256 true)
    [Construct 0 32%Z; Feed 0 (text "abc"); Fin 0; MoveConstruct 1 0; Vec 0; Fin 0; Vec 0; Fin 1; Vec 1; Rst 0; Feed 0 (text "abc"); Fin 0; Str 0] (fun _ => None) with
  | Ok (os, _) => os = [OBytes []; OBytes (unhex "f5bdc35c0027d2c013ccb315903e608f80c4be6968d6d476a27005e39c920b75");
      OBytes (unhex "3a985da74fe225b2045c172d6bd390bd855f086e3e9d525b46bfe24511431532");
      OChars (text "3a985da74fe225b2045c172d6bd390bd855f086e3e9d525b46bfe24511431532")]
  | _ => False
  end.
Proof. vm_compute. reflexivity. Qed.

Example C53_case_padding : closing (rate Sha3_256) (suffix Sha3_256) (text "abc") = [6] ++ repeat 0 131 ++ [128].
Proof. vm_compute. reflexivity. Qed.

(** an output of two blocks: one block of zeros goes in as well *)
Example C53_case_blocks :
  match oexec (objects Shake_128 false)
    [Construct 0 200%Z; Feed 0 (text "abc"); Fin 0; MoveConstruct 1 0; Fin 0; Vec 0] (fun _ => None) with
  | Ok ([OBytes d], _) => firstn 32 d = unhex "22f341a0116049bd74a34bdb3177cdd21790fa3c9de3c4df14ac340f58c43ea4" /\ length d = 200%nat
  | _ => False
  end.
Proof. vm_compute. split; reflexivity. Qed.

(** the ways to fail *)
Example C53_case_text : told (sha3_kind Sha3_224) [Construct 0 28%Z; Feed 0 (text "abc"); Fin 0; MoveConstruct 1 0; Str 0] = TextOfNothing.
Proof. reflexivity. Qed.
Example C53_case_null : told (tuple_kind rate128) [Construct 0 (16%Z, text "x"); MoveConstruct 1 0; Feed 0 (text "abc")] = NullPointer.
Proof. reflexivity. Qed.
Example C53_case_nothing : told (cshake_kind rate256) [Construct 0 (16%Z, [], []); MoveAssign 1 0] = NoSuchObject.
Proof. reflexivity. Qed.
