(** Helpers for the concrete cases shown beside the theorems. *)
From Coq Require Import String Ascii List NArith Arith Bool Lia.
From Verif.Base Require Import Res.
From Verif.Spec Require Import Words Client.
From Verif.Model Require Import Api.
Import ListNotations.

(** the ASCII codes of a literal *)
Fixpoint text (s : string) : list N :=
  match s with
  | EmptyString => []
  | String c r => N_of_ascii c :: text r
  end.

(** the bytes of a hexadecimal literal *)
Definition nibble (c : N) : N := if (c <? 58)%N then (c - 48)%N else (c - 87)%N.
Fixpoint unhex_codes (l : list N) : list N :=
  match l with
  | a :: b :: r => (16 * nibble a + nibble b)%N :: unhex_codes r
  | _ => []
  end.
Definition unhex (s : string) : list N := unhex_codes (text s).

(** [n] copies of a byte; the bytes 0, 1, 2, ... *)
Definition counting (n : nat) : list N := map (fun i => N.of_nat (i mod 256)) (seq 0 n).

Definition span_okb (d : list N) : bool :=
  forallb (fun b => b <? 256)%N d && (N.of_nat (List.length d) <? 2 ^ 64)%N.
Lemma span_okb_ok d : span_okb d = true -> span_ok d.
Proof.
  unfold span_okb. rewrite andb_true_iff, forallb_forall. intros [H1 H2]. split.
  - apply Forall_forall. intros x Hx. apply N.ltb_lt, H1, Hx.
  - apply N.ltb_lt, H2.
Qed.
Lemma spans_ok l : forallb span_okb l = true -> Forall span_ok l.
Proof. rewrite forallb_forall, Forall_forall. intros H x Hx. apply span_okb_ok, H, Hx. Qed.

Ltac spans := apply spans_ok; vm_compute; reflexivity.

(** A concrete digest: run the model and read the digest off the theorem.  (Evaluating the
    model is much cheaper for the proof checker than evaluating the specification.) *)
Lemma case_of C hash chunks out :
  (Forall span_ok chunks -> hash_chunks C chunks = Ok (hash (concat chunks))) ->
  Forall span_ok chunks -> hash_chunks C chunks = Ok out ->
  Forall span_ok chunks /\ hash (concat chunks) = out.
Proof. intros H Hs E. split; [exact Hs|]. specialize (H Hs). rewrite E in H. now injection H. Qed.

Ltac digest_case thm := cbv zeta; refine (case_of _ _ _ _ (thm _) _ _); [spans | vm_compute; reflexivity].

(** membership of a concrete message in a domain *)
Ltac in_domain := first [exact I | vm_compute; reflexivity | vm_compute; repeat constructor].
(** the same for a theorem that also requires the message to be in its domain *)
Ltac digest_case_dom thm :=
  cbv zeta; refine (case_of _ _ _ _ (fun H => thm _ H _) _ _); [in_domain | spans | vm_compute; reflexivity].

(** a program that uses copies, reset and every read-out, and what is promised for it *)
Definition demo : list cmd :=
  [On 0 (AddData (text "a")); On 0 (AddData (text "b")); CopyTo 1 0; On 0 (AddData (text "c"));
   On 0 Finalize; On 0 ToString; On 1 (AddData (counting 300)); On 1 Finalize; On 1 ToArray;
   CopyTo 2 1; On 1 Reset; On 1 (AddData (text "abc")); On 1 Finalize; On 1 (ToUint 4);
   On 2 ToVector; On 2 StdHash].
Definition demo_obs (hash : list N -> list N) : list obs :=
  [OChars (hex_text (hash (text "abc"))); OBytes (hash (text "ab" ++ counting 300));
   ONum (leading_number 4 (hash (text "abc"))); OBytes (hash (text "ab" ++ counting 300));
   ONum (leading_number 8 (hash (text "ab" ++ counting 300)))].

Lemma demo_legal hash (dom : list N -> Prop) : dom (text "abc") -> dom (text "ab" ++ counting 300) -> hash (text "abc") <> [] ->
  exists s', arun hash dom demo (fun _ => afresh) (demo_obs hash) s'.
Proof.
  intros Hd1 Hd2 Hne. eexists. unfold demo, demo_obs.
  assert (forall l, forallb span_okb [l] = true -> span_ok l) as Hs
    by (intros l Hl; apply spans_ok in Hl; now inversion Hl).
  apply (ar_on hash dom 0 _ _ _ (mkA (text "a") false) None);
    [apply (as_add hash dom (text "a") []), Hs; vm_compute; reflexivity|].
  apply (ar_on hash dom 0 _ _ _ (mkA (text "ab") false) None);
    [apply (as_add hash dom (text "b") (text "a")), Hs; vm_compute; reflexivity|].
  apply ar_copy.
  apply (ar_on hash dom 0 _ _ _ (mkA (text "abc") false) None);
    [apply (as_add hash dom (text "c") (text "ab")), Hs; vm_compute; reflexivity|].
  apply (ar_on hash dom 0 _ _ _ (mkA (text "abc") true) None);
    [apply (as_fin hash dom (text "abc")), Hd1|].
  refine (ar_on hash dom 0 _ _ _ (mkA (text "abc") true) (Some _) _ _ _ _);
    [apply (as_string hash dom (text "abc")), Hne|].
  apply (ar_on hash dom 1 _ _ _ (mkA (text "ab" ++ counting 300) false) None);
    [apply (as_add hash dom (counting 300) (text "ab")), Hs; vm_compute; reflexivity|].
  apply (ar_on hash dom 1 _ _ _ (mkA (text "ab" ++ counting 300) true) None);
    [apply (as_fin hash dom (text "ab" ++ counting 300)), Hd2|].
  refine (ar_on hash dom 1 _ _ _ (mkA (text "ab" ++ counting 300) true) (Some _) _ _ _ _);
    [apply (as_array hash dom (text "ab" ++ counting 300))|].
  apply ar_copy.
  apply (ar_on hash dom 1 _ _ _ afresh None); [apply as_reset|].
  apply (ar_on hash dom 1 _ _ _ (mkA (text "abc") false) None);
    [apply (as_add hash dom (text "abc") []), Hs; vm_compute; reflexivity|].
  apply (ar_on hash dom 1 _ _ _ (mkA (text "abc") true) None);
    [apply (as_fin hash dom (text "abc")), Hd1|].
  refine (ar_on hash dom 1 _ _ _ (mkA (text "abc") true) (Some _) _ _ _ _);
    [apply (as_uint hash dom (text "abc") 4)|].
  refine (ar_on hash dom 2 _ _ _ (mkA (text "ab" ++ counting 300) true) (Some _) _ _ _ _);
    [apply (as_vector hash dom (text "ab" ++ counting 300))|].
  refine (ar_on hash dom 2 _ _ _ (mkA (text "ab" ++ counting 300) true) (Some _) _ _ _ _);
    [apply (as_std hash dom (text "ab" ++ counting 300))|].
  apply ar_nil.
Qed.

(** the demo is legal and its third observation is as given *)
Lemma demo_shown hash (dom : list N -> Prop) out n : hash (text "abc") = out ->
  dom (text "abc") -> dom (text "ab" ++ counting 300) -> out <> [] -> leading_number 4 out = n ->
  exists os s', arun hash dom demo (fun _ => afresh) os s' /\ nth_error os 2 = Some (ONum n).
Proof.
  intros E H1 H2 Hne En. destruct (demo_legal hash dom H1 H2) as (s' & H).
  - now rewrite E.
  - exists (demo_obs hash), s'. split; [exact H|]. cbn [demo_obs nth_error]. now rewrite E, En.
Qed.
Ltac demo_case thm :=
  apply (demo_shown _ _ _ _ (proj2 thm)); [in_domain | in_domain | discriminate | vm_compute; reflexivity].
