(** fnv.h computes the FNV hashes. *)
From Coq Require Import List NArith Arith Bool Lia.
From Verif.Base Require Import Res CWord.
From Verif.Spec Require Import Words Client ObjClient.
From Verif.Model Require Import Buffer Stream Api ObjApi.
From Verif.Proof Require Import Words Streaming Blocks Api ObjApi.
From Verif.Spec Require Fnv.
From Verif.Model Require Fnv.
Module S := Verif.Spec.Fnv.
Module M := Verif.Model.Fnv.
Import ListNotations.
Local Open Scope N_scope.

Definition size_ok (size : nat) : Prop := size = 4%nat \/ size = 8%nat.

Lemma multiply_ok size h : size_ok size -> M.multiplyPrime size h = (h * S.prime (M.width size)) mod 2 ^ M.width size.
Proof.
  intros [-> | ->]; unfold M.multiplyPrime, umul; rewrite !trunc_mod; [reflexivity|].
  change (S.prime (M.width 8)) with (0x00000100000001b3 mod 2 ^ M.width 8). reflexivity.
Qed.

Lemma basis_ok size variant h : size_ok size -> (1 <= variant)%nat -> M.reset size variant h = S.offset_basis (M.width size).
Proof.
  intros [-> | ->] Hv; unfold M.reset; rewrite (proj2 (Nat.leb_le 1 variant) Hv); vm_compute; reflexivity.
Qed.

Definition value (size variant : nat) (m : list N) : N :=
  match variant with
  | O => S.fnv0 (M.width size) m
  | 1%nat => S.fnv1 (M.width size) m
  | _ => S.fnv1a (M.width size) m
  end.
Definition start (size variant : nat) : N := match variant with O => 0 | _ => S.offset_basis (M.width size) end.

Lemma new_ok size variant : size_ok size -> M.new size variant = start size variant.
Proof.
  intros H. unfold M.new, start. destruct variant; [reflexivity|]. apply basis_ok; [exact H|lia].
Qed.

Lemma value_ok size variant m : size_ok size -> (variant <= 2)%nat ->
  fold_left (M.step size variant) m (start size variant) = value size variant m.
Proof.
  intros Hs Hv.
  assert (forall (f g : N -> N -> N) h, (forall a b, f a b = g a b) -> fold_left f m h = fold_left g m h) as Hext.
  { intros f g. induction m as [|b m IH]; intros h E; [reflexivity|]. cbn [fold_left]. rewrite E. now apply IH. }
  destruct variant as [|[|[|]]]; [| | |lia]; apply Hext; intros a b; unfold M.step; cbn [Nat.leb Nat.eqb];
    now rewrite multiply_ok by exact Hs.
Qed.

Section Class.
  Variables (size variant : nat).
  Hypothesis Hs : size_ok size.
  Hypothesis Hv : (variant <= 2)%nat.
  Definition absorb (m : list N) : N := fold_left (M.step size variant) m (start size variant).

  Lemma add_ok m d : M.addDataImpl size variant d (absorb m) = Ok (absorb (m ++ d)).
  Proof using. unfold M.addDataImpl, absorb. now rewrite fold_left_app. Qed.
  Lemma array_ok m : M.toArray size (absorb m) = Ok (be_bytes size (value size variant m)).
  Proof using Hs Hv.
    unfold M.toArray, absorb. rewrite value_ok, word_bytes_be_ok by assumption. apply store_array_eq, be_bytes_length.
  Qed.

  Theorem implements : (1 <= variant)%nat ->
    Implements (M.cls size variant) (fun m => be_bytes size (value size variant m)) (fun _ => True) absorb absorb.
  Proof using Hs Hv.
    intros H1. constructor; cbn [c_new c_add c_finalize c_array c_reset M.cls].
    - now apply new_ok.
    - intros m d _ _. apply add_ok.
    - reflexivity.
    - intros m _ _. apply array_ok.
    - intros m _. unfold M.new. now rewrite !basis_ok by assumption.
    - intros m _ _. unfold M.new. now rewrite !basis_ok by assumption.
    - intros m _ _. apply be_bytes_ok.
  Qed.

  Theorem chunks chunks : hash_chunks (M.cls size variant) chunks = Ok (be_bytes size (value size variant (concat chunks))).
  Proof using Hs Hv.
    unfold hash_chunks. cbn [c_new c_add c_finalize c_array M.cls]. rewrite new_ok by exact Hs.
    assert (forall l m, foldM (M.addDataImpl size variant) l (absorb m) = Ok (absorb (m ++ concat l))) as H.
    { induction l as [|d l IH]; intros m; cbn [foldM concat]; [now rewrite app_nil_r|].
      rewrite add_ok, bind_ok, IH. now rewrite app_assoc. }
    change (start size variant) with (absorb []). rewrite H. cbn [app]. rewrite bind_ok. unfold M.finalize. rewrite bind_ok. apply array_ok.
  Qed.

  (** programs on FNV-0 objects, which are never reset *)
  Theorem obj_correct : ObjCorrect (M.obj_class size variant) (fun _ l => be_bytes size (value size variant (concat l)))
    (fun _ => True) span_ok (fun _ => (1 <= variant)%nat) (fun sl _ => sl <> NoObject).
  Proof using Hs Hv.
    apply (value_correct (hash := fun _ m => be_bytes size (value size variant m)) (absorb := fun _ => absorb) (done := fun _ => absorb)).
    - intros a _. rewrite new_ok by exact Hs. reflexivity.
    - intros a m d _ _ _. apply add_ok.
    - reflexivity.
    - intros a m _ _. split; [apply array_ok|apply be_bytes_ok].
    - intros a m _ H _. rewrite basis_ok by assumption. change (absorb []) with (start size variant).
      unfold start. destruct variant; [lia|reflexivity].
    - intros a m _ H _. rewrite basis_ok by assumption. change (absorb []) with (start size variant).
      unfold start. destruct variant; [lia|reflexivity].
  Qed.
End Class.

(** reset() of an FNV-0 object does nothing: what was added before it still counts *)
Theorem reset_keeps size x y : size_ok size -> exists st,
  exec (M.cls size 0) [On 0 (AddData x); On 0 Reset; On 0 (AddData y); On 0 Finalize; On 0 ToArray] (fun _ => c_new (M.cls size 0)) =
  Ok ([OBytes (be_bytes size (S.fnv0 (M.width size) (x ++ y)))], st).
Proof.
  intros Hs. eexists.
  pose proof (array_ok size 0 Hs ltac:(lia) (x ++ y)) as E. unfold absorb in E. rewrite fold_left_app, <- new_ok in E by exact Hs.
  cbn -[M.toArray M.new M.step fold_left be_bytes S.fnv0]. change (M.reset size 0) with (fun h : N => h). cbv beta.
  change (value size 0 (x ++ y)) with (S.fnv0 (M.width size) (x ++ y)) in E. rewrite E. reflexivity.
Qed.

Theorem reset_refuted size : size_ok size -> exists x y out out' st st', span_ok x /\ span_ok y /\
  exec (M.cls size 0) [On 0 (AddData x); On 0 Reset; On 0 (AddData y); On 0 Finalize; On 0 ToArray] (fun _ => c_new (M.cls size 0)) = Ok ([OBytes out], st) /\
  exec (M.cls size 0) [On 0 (AddData y); On 0 Finalize; On 0 ToArray] (fun _ => c_new (M.cls size 0)) = Ok ([OBytes out'], st') /\
  out <> out'.
Proof.
  intros H. assert (span_ok [1] /\ span_ok [2]) as [H1 H2] by (repeat split; repeat constructor).
  exists [1], [2]. destruct H as [-> | ->].
  - do 4 eexists. split; [exact H1|]. split; [exact H2|]. split; [vm_compute; reflexivity|]. split; [vm_compute; reflexivity|]. discriminate.
  - do 4 eexists. split; [exact H1|]. split; [exact H2|]. split; [vm_compute; reflexivity|]. split; [vm_compute; reflexivity|]. discriminate.
Qed.

Theorem correct size variant : size_ok size -> (variant <= 2)%nat -> (1 <= variant)%nat ->
  Correct (M.cls size variant) (fun m => be_bytes size (value size variant m)) (fun _ => True).
Proof. intros H1 H2 H3. do 2 eexists. exact (implements size variant H1 H2 H3). Qed.

Theorem bases : c_new (M.cls 4 1) = S.offset_basis 32 /\ c_new (M.cls 4 2) = S.offset_basis 32 /\
  c_new (M.cls 8 1) = S.offset_basis 64 /\ c_new (M.cls 8 2) = S.offset_basis 64.
Proof. repeat split; vm_compute; reflexivity. Qed.
