(** C49: SHA-3 and SHAKE objects of different output lengths in one program. *)
From Coq Require Import String List NArith ZArith Arith Lia.
From Verif.Base Require Import Res.
From Verif.Spec Require Import Words Client ObjClient KeccakTypes.
From Verif.Spec Require Keccak.
From Verif.Model Require Import Buffer Stream ObjApi KeccakObj.
From Verif.Tests Require Import Kit.
From Verif.Proof Require KeccakObj.
Import ListNotations.

(** Any program over objects of one base class, constructed with any lengths that are not negative, fed, finalized, reset,
    copied, moved and assigned to each other: it runs, and every read-out is that of the sponge with the length
    and the data that the object has by then *)
Theorem C49_history : forall t dbg p os s',
  orun (promised t) length_ok span_ok any_reset onto_object p (fun _ => NoObject) os s' ->
  exists st', oexec (objects t dbg) p (fun _ => None) = Ok (os, st').
Proof. exact Proof.KeccakObj.history. Qed.
Print Assumptions C49_history.

(** these are the functions of FIPS 202 *)
Theorem C49_fips : forall items,
  promised Sha3_224 28 items = Spec.Keccak.sha3_224 (concat items) /\ promised Sha3_256 32 items = Spec.Keccak.sha3_256 (concat items) /\
  promised Sha3_384 48 items = Spec.Keccak.sha3_384 (concat items) /\ promised Sha3_512 64 items = Spec.Keccak.sha3_512 (concat items) /\
  forall d, promised Shake_128 d items = Spec.Keccak.shake128 (Z.to_nat d) (concat items) /\
    promised Shake_256 d items = Spec.Keccak.shake256 (Z.to_nat d) (concat items).
Proof. exact Proof.KeccakObj.promised_fips. Qed.
Print Assumptions C49_fips.

(** An object that was moved from may be reset: it is then a new object with its old length *)
Theorem C49_moved_reset : forall t dbg p os s1 i j d items b q os' s',
  orun (promised t) length_ok span_ok any_reset onto_object p (fun _ => NoObject) os s1 ->
  s1 j = Live (mkO d items b) -> i <> j ->
  orun (promised t) length_ok span_ok any_reset onto_object q
    (oput (oput s1 i (Live (mkO d items b))) j (Live (mkO d [] false))) os' s' ->
  (exists st, oexec (objects t dbg) (p ++ MoveConstruct i j :: Rst j :: q) (fun _ => None) = Ok (os ++ os', st)) /\
  (s1 i <> NoObject -> exists st, oexec (objects t dbg) (p ++ MoveAssign i j :: Rst j :: q) (fun _ => None) = Ok (os ++ os', st)).
Proof. exact Proof.KeccakObj.moved_reset. Qed.
Print Assumptions C49_moved_reset.

(** In a program all of whose objects are created as variables of one type SHA3_n, every digest has n bits *)
Theorem C49_sized : forall t dbg d p os s', alias_length t = Some d -> (forall i a, In (Construct i a) p -> a = d) ->
  orun (promised t) length_ok span_ok any_reset onto_object p (fun _ => NoObject) os s' ->
  named_length t = Some d /\ exists st', oexec (objects t dbg) p (fun _ => None) = Ok (os, st') /\
    forall w, In (OBytes w) os -> length w = Z.to_nat d.
Proof. exact Proof.KeccakObj.sized. Qed.
Print Assumptions C49_sized.

(** but not in general: after assignment from an object of the public base class a variable that was only ever created
    as SHA3_n (here: slot 0) yields digests of another length *)
Theorem C49_length_refuted : exists t d p os s', alias_length t = Some d /\ (forall a, In (Construct 0 a) p -> a = d) /\
  orun (promised t) length_ok span_ok any_reset onto_object (p ++ [Vec 0]) (fun _ => NoObject) os s' /\
  forall dbg, exists st' w, oexec (objects t dbg) (p ++ [Vec 0]) (fun _ => None) = Ok (os, st') /\
    os = [OBytes w] /\ length w <> Z.to_nat d.
Proof. exact Proof.KeccakObj.length_refuted. Qed.
Print Assumptions C49_length_refuted.

(** two lengths, copies, both moves, a reset of a moved-from object *)
Definition two_lengths : list (ocmd Z) :=
  [Construct 0 32%Z; Construct 1 16%Z; Feed 0 (text "ab"); CopyConstruct 2 0; Feed 0 (text "c"); Feed 1 (text "abcd");
   MoveAssign 2 1; Rst 1; Feed 1 (text "abc"); Fin 0; Vec 0; Fin 1; Vec 1; Fin 2; Vec 2; CopyAssign 0 2; Vec 0; Rst 0; Fin 0; Str 0].
Definition outcome {A B} (r : res (A * B)) : res A := let! x := r in Ok (fst x).
Example C49_case : outcome (oexec (objects Sha3_256 true) two_lengths (fun _ => None)) = Ok
  [OBytes (unhex "3a985da74fe225b2045c172d6bd390bd855f086e3e9d525b46bfe24511431532");
   OBytes (unhex "3a985da74fe225b2045c172d6bd390bd"); OBytes (unhex "6f6f129471590d2c91804c812b5750cd");
   OBytes (unhex "6f6f129471590d2c91804c812b5750cd"); OChars (text "a7ffc6f8bf1ed76651c14756a061d662")].
Proof. vm_compute. reflexivity. Qed.

(** programs that meet the hypotheses of the three theorems *)
Example C49_history_applies : exists os s',
  orun (promised Sha3_256) length_ok span_ok any_reset onto_object
    (Proof.KeccakObj.resized (text "abc") ++ [Vec 0]) (fun _ => NoObject) os s' /\ os = [OBytes (promised Sha3_256 16 [text "abc"])].
Proof.
  destruct (Proof.KeccakObj.resized_runs (text "abc")) as (s' & H); [apply span_okb_ok; vm_compute; reflexivity|].
  eexists. exists s'. split; [exact H|reflexivity].
Qed.
Example C49_moved_reset_applies : exists s1 s',
  orun (promised Shake_128) length_ok span_ok any_reset onto_object [Construct 0 20%Z; Feed 0 (text "abc"); Construct 1 3%Z] (fun _ => NoObject) [] s1 /\
  s1 0 = Live (mkO 20%Z [text "abc"] false) /\ s1 1 <> NoObject /\
  orun (promised Shake_128) length_ok span_ok any_reset onto_object [Fin 0; Vec 0]
    (oput (oput s1 1 (Live (mkO 20%Z [text "abc"] false))) 0 (Live (mkO 20%Z [] false))) [OBytes (promised Shake_128 20 [])] s'.
Proof.
  eexists. eexists. split; [|split; [|split]].
  - eapply (or_cons _ _ _ _ _ _ _ _ _ None); [apply os_construct; unfold length_ok; lia|].
    eapply (or_cons _ _ _ _ _ _ _ _ _ None); [eapply os_feed; [reflexivity|apply span_okb_ok; vm_compute; reflexivity]|].
    eapply (or_cons _ _ _ _ _ _ _ _ _ None); [apply os_construct; unfold length_ok; lia|]. apply or_nil.
  - reflexivity.
  - discriminate.
  - eapply (or_cons _ _ _ _ _ _ _ _ _ None); [eapply os_fin; reflexivity|].
    eapply (or_cons _ _ _ _ _ _ _ _ _ (Some _)); [eapply os_vec; reflexivity|]. apply or_nil.
Qed.
Example C49_sized_applies : exists s' st',
  orun (promised Sha3_384) length_ok span_ok any_reset onto_object [Construct 5 48%Z; Fin 5; CopyConstruct 2 5; Vec 2] (fun _ => NoObject)
    [OBytes (promised Sha3_384 48 [])] s' /\ oexec (objects Sha3_384 false) [Construct 5 48%Z; Fin 5; CopyConstruct 2 5; Vec 2] (fun _ => None) =
    Ok ([OBytes (promised Sha3_384 48 [])], st').
Proof.
  assert (exists s', orun (promised Sha3_384) length_ok span_ok any_reset onto_object [Construct 5 48%Z; Fin 5; CopyConstruct 2 5; Vec 2] (fun _ => NoObject)
    [OBytes (promised Sha3_384 48 [])] s') as (s' & H).
  { eexists. eapply (or_cons _ _ _ _ _ _ _ _ _ None); [apply os_construct; unfold length_ok; lia|].
    eapply (or_cons _ _ _ _ _ _ _ _ _ None); [eapply os_fin; reflexivity|].
    eapply (or_cons _ _ _ _ _ _ _ _ _ None); [eapply os_copy; reflexivity|].
    eapply (or_cons _ _ _ _ _ _ _ _ _ (Some _)); [eapply os_vec; reflexivity|]. apply or_nil. }
  exists s'. destruct (Proof.KeccakObj.history Sha3_384 false _ _ _ H) as (st' & E). exists st'. split; [exact H|exact E].
Qed.
