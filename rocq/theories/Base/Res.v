(** Outcomes, loops and bounds-checked arrays: the vocabulary in which the C++
    code is modelled.  Nothing here is specific to a hash function. *)
From Coq Require Import List NArith Arith Lia Bool.
Import ListNotations.

(** Undefined behaviour is a distinct outcome, never assumed away. *)
Inductive ub_kind :=
| OobRead          (* read outside an array or span *)
| OobWrite         (* write outside an array *)
| UninitRead       (* read of an indeterminate value *)
| NullDeref        (* dereference of an empty unique_ptr *)
| SpanPre          (* precondition of span::first/subspan violated *)
| EmptyFront       (* front() of an empty string *)
| SignedOverflow   (* int arithmetic out of range *)
| BadShift         (* shift by the width of the type or more *)
| OutOfFuel.       (* model artefact: recursion bound exhausted (theorems exclude it) *)

(** C++ exceptions and failed asserts. *)
Inductive exn :=
| OutOfRange       (* std::out_of_range *)
| LengthError      (* std::length_error *)
| InvalidArgument  (* std::invalid_argument *)
| AssertFail.      (* assert() in a debug build *)

Inductive res (A : Type) : Type :=
| Ok (a : A)
| Throw (e : exn)
| Ub (u : ub_kind).
Arguments Ok {A} a.
Arguments Throw {A} e.
Arguments Ub {A} u.

Definition bind {A B} (r : res A) (k : A -> res B) : res B :=
  match r with
  | Ok a => k a
  | Throw e => Throw e
  | Ub u => Ub u
  end.

Notation "'let!' x ':=' r 'in' k" := (bind r (fun x => k))
  (at level 200, x pattern, r at level 100, k at level 200, right associativity).

Definition is_ok {A} (r : res A) : bool :=
  match r with Ok _ => true | _ => false end.

Lemma bind_ok {A B} (a : A) (k : A -> res B) : bind (Ok a) k = k a.
Proof. reflexivity. Qed.

Lemma bind_assoc {A B C} (r : res A) (f : A -> res B) (g : B -> res C) :
  bind (bind r f) g = bind r (fun a => bind (f a) g).
Proof. destruct r; reflexivity. Qed.

Lemma bind_ext {A B} (r : res A) (f g : A -> res B) :
  (forall a, f a = g a) -> bind r f = bind r g.
Proof. intros H; destruct r; cbn; auto. Qed.

Lemma bind_Ok_r {A} (r : res A) : bind r Ok = r.
Proof. destruct r; reflexivity. Qed.

(** [for (i = from; i < from + n; ++i) s = body(i, s)] *)
Fixpoint for_ {S : Type} (from n : nat) (body : nat -> S -> res S) (s : S) : res S :=
  match n with
  | O => Ok s
  | Datatypes.S n' => let! s' := body from s in for_ (Datatypes.S from) n' body s'
  end.

(** Array read and write; outside the declared length is undefined. *)
Definition aget {A} (l : list A) (i : nat) : res A :=
  match nth_error l i with
  | Some v => Ok v
  | None => Ub OobRead
  end.

(** a[i - k] with an index that would become negative *)
Definition aget_back {A} (l : list A) (i k : nat) : res A :=
  if Nat.ltb i k then Ub OobRead else aget l (i - k).

Fixpoint upd {A} (l : list A) (i : nat) (v : A) : list A :=
  match l, i with
  | [], _ => []
  | _ :: t, O => v :: t
  | h :: t, Datatypes.S j => h :: upd t j v
  end.

Definition aset {A} (l : list A) (i : nat) (v : A) : res (list A) :=
  if Nat.ltb i (length l) then Ok (upd l i v) else Ub OobWrite.

(** [map] in the result monad, left to right. *)
Fixpoint mapM {A B} (f : A -> res B) (l : list A) : res (list B) :=
  match l with
  | [] => Ok []
  | x :: t => let! y := f x in let! ys := mapM f t in Ok (y :: ys)
  end.

(** Fold in the result monad, left to right. *)
Fixpoint foldM {A S} (f : A -> S -> res S) (l : list A) (s : S) : res S :=
  match l with
  | [] => Ok s
  | x :: t => let! s' := f x s in foldM f t s'
  end.

(** an array whose elements start indeterminate: [None] until written *)
Definition iget {A} (l : list (option A)) (i : nat) : res A :=
  let! o := aget l i in
  match o with Some v => Ok v | None => Ub UninitRead end.

(** * Lemmas *)

Lemma aget_ok {A} (d : A) l i : i < length l -> aget l i = Ok (nth i l d).
Proof.
  intros H; unfold aget. rewrite (nth_error_nth' l d H). reflexivity.
Qed.

Lemma aget_app_l {A} (x y : list A) i : i < length x -> aget (x ++ y) i = aget x i.
Proof. intros H; unfold aget; rewrite nth_error_app1 by exact H; reflexivity. Qed.

Lemma upd_length {A} (l : list A) i v : length (upd l i v) = length l.
Proof. revert i; induction l as [|h t IH]; intros [|i]; cbn; auto. Qed.

Lemma upd_app_r {A} (x y : list A) i v :
  upd (x ++ y) (length x + i) v = x ++ upd y i v.
Proof. induction x as [|h t IH]; cbn; [reflexivity|]. now rewrite IH. Qed.

Lemma upd_app_l {A} (x y : list A) i v :
  i < length x -> upd (x ++ y) i v = upd x i v ++ y.
Proof.
  revert i; induction x as [|h t IH]; intros [|i] H; cbn in *; try lia; auto.
  rewrite IH by lia; reflexivity.
Qed.

Lemma nth_upd_same {A} (l : list A) i v d : i < length l -> nth i (upd l i v) d = v.
Proof.
  revert i; induction l as [|h t IH]; intros [|i] H; cbn in *; try lia; auto.
  apply IH; lia.
Qed.

Lemma nth_upd_other {A} (l : list A) i j v d : i <> j -> nth j (upd l i v) d = nth j l d.
Proof.
  revert i j; induction l as [|h t IH]; intros [|i] [|j] H; cbn in *; try congruence; auto.
Qed.

Lemma aset_ok {A} (l : list A) i v : i < length l -> aset l i v = Ok (upd l i v).
Proof. intros H; unfold aset; apply Nat.ltb_lt in H; rewrite H; reflexivity. Qed.

Lemma aset_app_r {A} (x y : list A) i v :
  i < length y -> aset (x ++ y) (length x + i) v = Ok (x ++ upd y i v).
Proof.
  intros H. rewrite aset_ok by (rewrite app_length; lia). now rewrite upd_app_r.
Qed.

Lemma for_app {S} (body : nat -> S -> res S) n m from s :
  for_ from (n + m) body s = bind (for_ from n body s) (for_ (from + n) m body).
Proof.
  revert from s; induction n as [|n IH]; intros from s; cbn.
  - rewrite Nat.add_0_r; reflexivity.
  - rewrite bind_assoc. apply bind_ext; intros a. rewrite IH.
    replace (from + Datatypes.S n) with (Datatypes.S from + n) by lia. reflexivity.
Qed.

Lemma for_S {S} (body : nat -> S -> res S) n from s :
  for_ from (Datatypes.S n) body s =
  bind (for_ from n body s) (body (from + n)).
Proof.
  replace (Datatypes.S n) with (n + 1) by lia. rewrite for_app.
  apply bind_ext; intros a. cbn. apply bind_Ok_r.
Qed.

(** Loop rule: an indexed invariant [Inv] preserved by the body. *)
Lemma for_inv {S} (Inv : nat -> S -> Prop) (body : nat -> S -> res S) n :
  forall from s,
  Inv from s ->
  (forall i s, from <= i < from + n -> Inv i s ->
     exists s', body i s = Ok s' /\ Inv (Datatypes.S i) s') ->
  exists s', for_ from n body s = Ok s' /\ Inv (from + n) s'.
Proof.
  induction n as [|n IH]; intros from s H0 Hstep; cbn.
  - exists s; rewrite Nat.add_0_r; auto.
  - destruct (Hstep from s ltac:(lia) H0) as (s1 & E1 & H1). rewrite E1; cbn.
    destruct (IH (Datatypes.S from) s1 H1) as (s2 & E2 & H2).
    + intros i s' Hi HI; apply Hstep; [lia|exact HI].
    + exists s2; split; [exact E2|]. now replace (from + Datatypes.S n) with (Datatypes.S from + n) by lia.
Qed.

(** Loop rule, functional version: the body computes [g i] on states satisfying [Inv]. *)
Lemma for_fold {S} (Inv : nat -> S -> Prop) (g : nat -> S -> S) (body : nat -> S -> res S) n :
  forall from s,
  Inv from s ->
  (forall i s, from <= i < from + n -> Inv i s -> body i s = Ok (g i s) /\ Inv (Datatypes.S i) (g i s)) ->
  for_ from n body s = Ok (fold_left (fun a i => g i a) (seq from n) s) /\
  Inv (from + n) (fold_left (fun a i => g i a) (seq from n) s).
Proof.
  induction n as [|n IH]; intros from s H0 Hstep; cbn.
  - rewrite Nat.add_0_r; auto.
  - destruct (Hstep from s ltac:(lia) H0) as (E1 & H1). rewrite E1; cbn.
    replace (from + Datatypes.S n) with (Datatypes.S from + n) by lia.
    apply IH; [exact H1|]. intros i s' Hi HI; apply Hstep; [lia|exact HI].
Qed.

Lemma for_ext {S} (b1 b2 : nat -> S -> res S) n :
  forall from s, (forall i s, from <= i < from + n -> b1 i s = b2 i s) ->
  for_ from n b1 s = for_ from n b2 s.
Proof.
  induction n as [|n IH]; intros from s H; cbn; [reflexivity|].
  rewrite H by lia. apply bind_ext; intros a. apply IH. intros i s' Hi; apply H; lia.
Qed.

Lemma foldM_app {A S} (f : A -> S -> res S) x y s :
  foldM f (x ++ y) s = bind (foldM f x s) (foldM f y).
Proof.
  revert s; induction x as [|a x IH]; intros s; cbn; [reflexivity|].
  rewrite bind_assoc. apply bind_ext; intros s'. apply IH.
Qed.

Lemma foldM_fold {A S} (Inv : S -> Prop) (g : A -> S -> S) (f : A -> S -> res S) l :
  forall s, Inv s ->
  (forall a s, In a l -> Inv s -> f a s = Ok (g a s) /\ Inv (g a s)) ->
  foldM f l s = Ok (fold_left (fun s a => g a s) l s) /\ Inv (fold_left (fun s a => g a s) l s).
Proof.
  induction l as [|a l IH]; intros s H0 Hstep; cbn; [auto|].
  destruct (Hstep a s (or_introl eq_refl) H0) as (E & H1). rewrite E; cbn.
  apply IH; [exact H1|]. intros b s' Hb; apply Hstep; right; exact Hb.
Qed.

Lemma mapM_ok {A B} (f : A -> res B) (g : A -> B) l :
  (forall a, In a l -> f a = Ok (g a)) -> mapM f l = Ok (map g l).
Proof.
  induction l as [|a l IH]; intros H; cbn; [reflexivity|].
  rewrite (H a (or_introl eq_refl)); cbn. rewrite IH; [reflexivity|].
  intros b Hb; apply H; right; exact Hb.
Qed.
