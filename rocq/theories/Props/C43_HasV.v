(** C43: the unfinished class HAS_V_320: its digest is a function of the message for every
    division into addData calls, but not the function its own tests ask for. *)
From Coq Require Import String List NArith.
From Verif.Base Require Import Res.
From Verif.Spec Require Import Words Client.
From Verif.Model Require Import Api.
From Verif.Tests Require Import Kit.
From Verif.Spec Require HasV.
From Verif.Model Require HasV.
From Verif.Proof Require Api.
From Verif.Proof Require HasV.
From Verif.Proof Require HasVVectors.
Import ListNotations.

(** any sequence of addData calls, then finalize() and toArray()/toVector() *)
Theorem C43_digest_partial : forall dbg chunks,
  Forall span_ok chunks ->
  hash_chunks (Model.HasV.cls dbg) chunks = Ok (Spec.HasV.has_v (concat chunks)).
Proof. exact (fun dbg chunks H => Proof.Api.correct_chunks _ _ _ (Proof.HasV.hasv_correct dbg) chunks H I). Qed.
Print Assumptions C43_digest_partial.

(** the members the class has; it cannot be assigned (BLOCK_SIZE is a const member) *)
Definition has_member (c : cmd) : Prop :=
  match c with
  | On _ (AddData _) | On _ Finalize | On _ Reset | On _ ToArray | On _ ToVector => True
  | _ => False
  end.

(** every program over any number of such objects *)
Theorem C43_history_partial : forall dbg p os s',
  Forall has_member p ->
  arun Spec.HasV.has_v (fun _ => True) p (fun _ => afresh) os s' ->
  exists st', exec (Model.HasV.cls dbg) p (fun _ => c_new (Model.HasV.cls dbg)) = Ok (os, st').
Proof. exact (fun dbg p os s' _ => Proof.Api.correct_history _ _ _ (Proof.HasV.hasv_correct dbg) p os s'). Qed.
Print Assumptions C43_history_partial.

(** toString() *)
Theorem C43_text_partial : forall dbg chunks,
  Forall span_ok chunks ->
  (let! x := foldM (Model.HasV.addData dbg) chunks Model.HasV.fresh in
   let! x := Model.HasV.finalize dbg x in
   Model.HasV.toString x) = Ok (hex_text (Spec.HasV.has_v (concat chunks))).
Proof. exact Proof.HasV.text_ok. Qed.
Print Assumptions C43_text_partial.

(** Neither of the two vectors that test_has_v_320.cpp (lines 21-28) quotes from the
    HAS-V specification is reproduced. *)
Theorem C43_vectors_refuted : forall dbg,
  hash_chunks (Model.HasV.cls dbg) [text ""] <>
    Ok (unhex "475974bed7ea137d982d1df5b2583b1ac4d5941d8d557bb303586742d8891788943a9668a9da68c3") /\
  hash_chunks (Model.HasV.cls dbg) [text "abc"] <>
    Ok (unhex "a70ab818294865cf9c9697d69715235370381b833f8f1a42e01505888b002e4305fe6405519f595c").
Proof. exact Proof.HasVVectors.vectors_differ. Qed.
Print Assumptions C43_vectors_refuted.

(** values computed by an independent transcription *)
Example C43_case1 : let chunks := [text "ab"; []; text "c"] in
  Forall span_ok chunks /\ Spec.HasV.has_v (concat chunks) =
  unhex "ce3f84c126637b1a081af001b7b6a07d7299501c58c4421c79d8df3da1fdbaea2565c8efa3921d76".
Proof. digest_case (C43_digest_partial true). Qed.

Example C43_case2 : let chunks := [counting 100; counting 50] in
  Forall span_ok chunks /\ Spec.HasV.has_v (concat chunks) =
  unhex "b659dd51d0ded1ba554ee7bc3a7be8de559eaa08d88cc83b0b7ac2b334dd6114667ea26aa96cb9d7".
Proof. digest_case (C43_digest_partial false). Qed.

Example C43_reuse : let p := [On 0 (AddData (text "ab")); On 0 Finalize; On 0 Reset;
    On 0 (AddData (text "abc")); On 0 Finalize; On 0 ToArray] in
  Forall has_member p /\ exists os s',
  arun Spec.HasV.has_v (fun _ => True) p (fun _ => afresh) os s' /\
  os = [OBytes (unhex "ce3f84c126637b1a081af001b7b6a07d7299501c58c4421c79d8df3da1fdbaea2565c8efa3921d76")].
Proof.
  split; [repeat constructor|].
  exists [OBytes (Spec.HasV.has_v (text "abc"))]. eexists. split; [|apply (f_equal (fun x => [OBytes x])), C43_case1].
  apply (ar_on _ _ 0 _ _ _ (mkA (text "ab") false) None); [apply (as_add _ _ (text "ab") []), span_okb_ok; reflexivity|].
  apply (ar_on _ _ 0 _ _ _ (mkA (text "ab") true) None); [apply (as_fin _ _ (text "ab")), I|].
  apply (ar_on _ _ 0 _ _ _ afresh None); [apply as_reset|].
  apply (ar_on _ _ 0 _ _ _ (mkA (text "abc") false) None); [apply (as_add _ _ (text "abc") []), span_okb_ok; reflexivity|].
  apply (ar_on _ _ 0 _ _ _ (mkA (text "abc") true) None); [apply (as_fin _ _ (text "abc")), I|].
  refine (ar_on _ _ 0 _ _ _ (mkA (text "abc") true) (Some _) _ _ _ _); [apply (as_array _ _ (text "abc"))|].
  apply ar_nil.
Qed.
