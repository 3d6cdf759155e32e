(** What a debug build computes, a release build computes: a call that returns normally with the checks on returns the
    same with the checks off.  No assumption about the program or the object. *)
From Coq Require Import List NArith Arith Bool Lia.
From Verif.Base Require Import Res CWord.
From Verif.Spec Require Import Client.
From Verif.Model Require Import Buffer Stream Api Library.
From Verif.Model Require Blake1 Blake2 Keccak Md2 SipHash.
Import ListNotations.

Definition le {A} (r r' : res A) : Prop := forall y, r = Ok y -> r' = Ok y.

Lemma le_refl {A} (r : res A) : le r r.
Proof. intros y H. exact H. Qed.
Lemma le_bind {A B} (r r' : res A) (k k' : A -> res B) : le r r' -> (forall a, le (k a) (k' a)) -> le (bind r k) (bind r' k').
Proof.
  intros Hr Hk y. destruct r as [a| |]; [|discriminate|discriminate]. rewrite (Hr a eq_refl), !bind_ok. apply Hk.
Qed.
Lemma le_if {A} (b : bool) (r r' q q' : res A) : le r r' -> le q q' -> le (if b then r else q) (if b then r' else q').
Proof. now destruct b. Qed.
Lemma le_for {S} (f g : nat -> S -> res S) : (forall i s, le (f i s) (g i s)) -> forall n i s, le (for_ i n f s) (for_ i n g s).
Proof.
  intros H. induction n as [|n IH]; intros i s; cbn [for_]; [apply le_refl|]. apply le_bind; [apply H|]. intros a. apply IH.
Qed.
Lemma le_foldM {A S} (f g : A -> S -> res S) : (forall a s, le (f a s) (g a s)) -> forall l s, le (foldM f l s) (foldM g l s).
Proof.
  intros H. induction l as [|a l IH]; intros s; cbn [foldM]; [apply le_refl|]. apply le_bind; [apply H|]. intros b. apply IH.
Qed.

Lemma le_check n b : le (buf_check true n b) (buf_check false n b).
Proof. intros []. reflexivity. Qed.
Lemma le_fill v n b : le (buf_fill true v n b) (buf_fill false v n b).
Proof. unfold buf_fill. apply le_bind; [apply le_check|]. intros _. apply le_refl. Qed.
Lemma le_push d b : le (buf_push_back true d b) (buf_push_back false d b).
Proof. apply le_foldM. intros. apply le_fill. Qed.
Lemma le_range cap d : le (buf_of_range true cap d) (buf_of_range false cap d).
Proof. apply le_foldM. intros. apply le_fill. Qed.
Lemma le_assert B d : le (assert_aligned B true d) (assert_aligned B false d).
Proof. intros []. reflexivity. Qed.

Ltac le := repeat first
  [ apply le_refl | apply le_fill | apply le_push | apply le_range | apply le_assert | assumption
  | apply le_bind; [|intros ?] | apply le_if
  | match goal with |- le (let (_, _) := ?x in _) _ => destruct x end
  | match goal with |- le (match ?x with _ => _ end) _ => destruct x end ].

Section Stream.
  Context {St : Type}.
  Variables (B cap : nat) (impl : bool -> list N -> St -> res St).
  Hypothesis Hi : forall d s, le (impl true d s) (impl false d s).

  Lemma le_addData d o : le (addData St B cap true (impl true) d o) (addData St B cap false (impl false) d o).
  Proof using Hi. unfold addData, addData_tail. destruct o as [b s]. pose proof Hi. le; apply Hi. Qed.

  Lemma le_addData2 d o : le (Blake2.addData St B true (impl true) d o) (Blake2.addData St B false (impl false) d o).
  Proof using Hi.
    unfold Blake2.addData. generalize 3. intros n. revert d o.
    induction n as [|n IH]; intros d o; cbn [Blake2.addData_rec]; [apply le_refl|]. destruct o as [b s]. unfold Blake2.addData_tail.
    destruct d as [|x d]; le; first [apply Hi | apply IH].
  Qed.
End Stream.

Lemma le_md_impl {H} B (c : list N -> H -> res H) d s : le (md_impl B true c d s) (md_impl B false c d s).
Proof. unfold md_impl. le. Qed.
Lemma le_md128_impl {H} B (c : list N -> H -> res H) d s : le (md128_impl B true c d s) (md128_impl B false c d s).
Proof. unfold md128_impl. le. Qed.

(** a class, given for both kinds of build, whose members in a release build do what they do in a debug build *)
Definition Builds (C : bool -> HashClass) : Prop :=
  exists O (new : O) add fin reset arr,
    (forall dbg, C dbg = mkClass O new (add dbg) (fin dbg) reset arr) /\
    (forall d x, le (add true d x) (add false d x)) /\ (forall x, le (fin true x) (fin false x)).

Lemma builds_const C : Builds (fun _ => C).
Proof.
  exists (Obj C), (c_new C), (fun _ => c_add C), (fun _ => c_finalize C), (c_reset C), (c_array C).
  split; [|split]; [now destruct C|intros; apply le_refl..].
Qed.

Lemma builds_md {H} B pb wl (c : list N -> H -> res H) iv arr : Builds (fun dbg => md_class B dbg pb wl c iv arr).
Proof.
  do 6 eexists. split; [intros dbg; unfold md_class|split].
    refine (eq_refl (mkClass _ _ ((fun dbg => addData (MD H) B (2 * B) dbg (md_impl B dbg c)) dbg)
      ((fun dbg => md_finalize B dbg pb wl (md_impl B dbg c)) dbg) _ _)).
  - intros d x. cbv beta. apply (le_addData B (2 * B) (fun dbg => md_impl B dbg c)). intros. apply le_md_impl.
  - intros x. cbv beta. unfold md_finalize. destruct x. le.
Qed.
Lemma builds_md128 {H} B r (c : list N -> H -> res H) iv arr : Builds (fun dbg => md128_class B r dbg c iv arr).
Proof.
  do 6 eexists. split; [intros dbg; unfold md128_class|split].
  - refine (eq_refl (mkClass _ _ ((fun dbg => addData (MD128 H) B (2 * B) dbg (md128_impl B dbg c)) dbg)
      ((fun dbg => md128_finalize B r dbg (md128_impl B dbg c)) dbg) _ _)).
  - intros d x. cbv beta. apply (le_addData B (2 * B) (fun dbg => md128_impl B dbg c)). intros. apply le_md128_impl.
  - intros x. cbv beta. unfold md128_finalize. destruct x. le.
Qed.

Lemma builds_blake1 w nb r1 r2 r3 r4 ct F calls K narrow lastbit iv size n :
  Builds (fun dbg => Blake1.cls w nb r1 r2 r3 r4 ct F calls K narrow lastbit dbg iv size n).
Proof.
  assert (forall p d s, le (Blake1.impl w nb r1 r2 r3 r4 ct F calls K narrow true p d s) (Blake1.impl w nb r1 r2 r3 r4 ct F calls K narrow false p d s)) as Hi
    by (intros; unfold Blake1.impl; le).
  do 6 eexists. split; [intros dbg; unfold Blake1.cls, stream_class|split].
  - refine (eq_refl (mkClass _ _ ((fun dbg => addData _ _ _ dbg (Blake1.impl w nb r1 r2 r3 r4 ct F calls K narrow dbg 0)) dbg)
      ((fun dbg => Blake1.finalize w nb r1 r2 r3 r4 ct F calls K narrow lastbit dbg) dbg) _ _)).
  - intros d x. cbv beta. apply (le_addData _ _ (fun dbg => Blake1.impl w nb r1 r2 r3 r4 ct F calls K narrow dbg 0)). intros. apply Hi.
  - intros x. cbv beta. unfold Blake1.finalize. destruct x. le.
Qed.
Lemma builds_blake2 w nb r1 r2 r3 r4 IV F calls K size : Builds (fun dbg => Blake2.cls w nb r1 r2 r3 r4 IV F calls K dbg size).
Proof.
  assert (forall f p d s, le (Blake2.impl w nb r1 r2 r3 r4 IV F calls K true f p d s) (Blake2.impl w nb r1 r2 r3 r4 IV F calls K false f p d s)) as Hi
    by (intros; unfold Blake2.impl; le).
  do 6 eexists. split; [intros dbg; unfold Blake2.cls|split].
  - refine (eq_refl (mkClass _ _ ((fun dbg => Blake2.addData _ _ dbg (Blake2.impl w nb r1 r2 r3 r4 IV F calls K dbg false 0)) dbg)
      ((fun dbg => Blake2.finalize w nb r1 r2 r3 r4 IV F calls K dbg) dbg) _ _)).
  - intros d x. cbv beta. apply (le_addData2 _ (fun dbg => Blake2.impl w nb r1 r2 r3 r4 IV F calls K dbg false 0)). intros. apply Hi.
  - intros x. cbv beta. unfold Blake2.finalize. destruct x. le.
Qed.
Lemma builds_keccak R P n : Builds (fun dbg => Keccak.cls R P dbg n).
Proof.
  assert (forall d s, le (Keccak.impl R true d s) (Keccak.impl R false d s)) as Hi by (intros; unfold Keccak.impl; le).
  do 6 eexists. split; [intros dbg; unfold Keccak.cls|split].
  - refine (eq_refl (mkClass _ _ ((fun dbg => Keccak.addData R dbg) dbg) ((fun dbg => Keccak.finalize R P dbg) dbg) _ _)).
  - intros d x. cbv beta. apply (le_addData _ _ (fun dbg => Keccak.impl R dbg)). exact Hi.
  - assert (forall f s, le (Keccak.squish R true f s) (Keccak.squish R false f s)) as Hs.
    { induction f as [|f IH]; intros s; cbn [Keccak.squish]; [apply le_refl|]. le; apply IH. }
    intros x. cbv beta. unfold Keccak.finalize. destruct x. le; apply Hs.
Qed.
Lemma builds_sip C D k0 k1 : Builds (fun dbg => SipHash.cls C D dbg k0 k1).
Proof.
  assert (forall d s, le (SipHash.addDataImpl C true d s) (SipHash.addDataImpl C false d s)) as Hi by (intros; unfold SipHash.addDataImpl; le).
  do 6 eexists. split; [intros dbg; unfold SipHash.cls|split].
  - refine (eq_refl (mkClass _ _ ((fun dbg => SipHash.add C dbg) dbg) ((fun dbg => SipHash.finalize C D dbg) dbg) _ _)).
  - intros d x. cbv beta. apply (le_addData _ _ (fun dbg => SipHash.addDataImpl C dbg)). exact Hi.
  - intros x. cbv beta. unfold SipHash.finalize. destruct x. le.
Qed.
Lemma builds_md2 : Builds Md2.cls.
Proof.
  do 6 eexists. split; [intros dbg; unfold Md2.cls, stream_class|split].
  - refine (eq_refl (mkClass _ _ ((fun dbg => addData _ _ _ dbg Md2.addDataImpl) dbg) ((fun dbg => Md2.finalize dbg) dbg) _ _)).
  - intros d x. cbv beta. apply (le_addData _ _ (fun _ => Md2.addDataImpl)). intros. apply le_refl.
  - intros x. cbv beta. unfold Md2.finalize. destruct x. le.
Qed.

Theorem library_builds a : Builds (class a).
Proof.
  destruct a; first
    [ exact (builds_const _) | exact (builds_md _ _ _ _ _ _) | exact (builds_md128 _ _ _ _ _)
    | exact (builds_blake1 _ _ _ _ _ _ _ _ _ _ _ _ _ _ _) | exact (builds_blake2 _ _ _ _ _ _ _ _ _ _ _)
    | exact (builds_keccak _ _ _) | exact (builds_sip _ _ _ _) | exact builds_md2 ].
Qed.

(** whole programs *)
Theorem builds_exec C : Builds C -> forall p os st, exec (C true) p (fun _ => c_new (C true)) = Ok (os, st) ->
  exists st', exec (C false) p (fun _ => c_new (C false)) = Ok (os, st').
Proof.
  intros (O & new & add & fin & reset & arr & HC & Ha & Hf). rewrite !HC. intros p os st E. exists st. revert E.
  set (C1 := mkClass O new (add true) (fin true) reset arr). set (C2 := mkClass O new (add false) (fin false) reset arr).
  change (fun _ : nat => c_new C2) with (fun _ : nat => c_new C1). generalize (fun _ : nat => c_new C1). intros s.
  cut (le (exec C1 p s) (exec C2 p s)); [intros H; apply H|]. revert s.
  induction p as [|[i o|i j] p IH]; intros s; cbn [exec]; [apply le_refl| |apply IH].
  apply le_bind.
  - destruct o; cbn [exec_op c_add c_finalize c_array c_reset C1 C2]; try apply le_refl; (apply le_bind; [apply Ha || apply Hf|intros; apply le_refl]).
  - intros r. apply le_bind; [apply IH|]. intros t. apply le_refl.
Qed.
