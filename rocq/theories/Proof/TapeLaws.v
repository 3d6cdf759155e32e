(** Consequences of Spec/Tape.v for users of the classes. *)
From Coq Require Import List NArith ZArith Arith Bool Lia.
From Verif.Base Require Import Res.
From Verif.Spec Require Import Words Client ObjClient Log2 KeccakTypes Sp800185 CShakeArgs Ownership Tape.
From Verif.Model Require Import Buffer Stream Api ObjApi KeccakObj.
From Verif.Spec Require Keccak.
From Verif.Model Require CShake TupleHash.
From Verif.Proof Require Import TapeObj.
Import ListNotations.

Lemma story_app {G} (k : kind G) p q s : story k (p ++ q) s =
  match story k p s with
  | Goes (os, s1) => match story k q s1 with Goes (os', s2) => Goes (os ++ os', s2) | f => f end
  | f => f
  end.
Proof.
  revert s. induction p as [|c p IH]; intros s; cbn [app story].
  - destruct (story k q s) as [[os s1]| | |]; reflexivity.
  - destruct (hstep k c s) as [[s1 w]| | |]; try reflexivity. rewrite IH. destruct (story k p s1) as [[os s2]| | |]; try reflexivity.
    destruct (story k q s2) as [[os' s3]| | |]; try reflexivity. now destruct w.
Qed.

(** something that holds of all that objects hold holds at every moment *)
Section Always.
  Context {G : Type}.
  Variables (k : kind G) (I : Held k -> Prop).
  Hypothesis Inew : forall a, I (k_new k a).
  Hypothesis Ifeed : forall m x y, I x -> k_feed k m x = Some y -> I y.
  Hypothesis Ifin : forall x y, I x -> k_finalize k x = Some y -> I y.
  Hypothesis Ireset : forall x y, I x -> k_reset k x = Some y -> I y.
  Hypothesis Icopy : forall x y, I x -> k_copy k x = Some y -> I y.
  Hypothesis Imove : forall x, I x -> I (fst (k_move k x)) /\ I (snd (k_move k x)).
  Hypothesis Iassign : forall x y z, I x -> I y -> k_assign k x y = Some z -> I z.
  Hypothesis Imassign : forall x y, I x -> I y -> I (fst (k_massign k x y)) /\ I (snd (k_massign k x y)).
  Variable D : list N -> Prop.
  Hypothesis Idigest : forall x d, I x -> k_digest k x = Some d -> D d.

  Definition all_hold (s : holdings k) : Prop := forall i x, s i = Some x -> I x.
  (** the digest behind what is shown *)
  Definition from_digest (w : obs) : Prop :=
    exists d, D d /\ (w = OBytes d \/ d <> [] /\ w = OChars (hex_text d) \/ exists n, w = ONum (leading_number n d)).

  Lemma hput_hold s i x : all_hold s -> I x -> all_hold (hput k s i x).
  Proof using. intros H Hx j y. unfold hput. destruct (j =? i); [|apply H]. intros E. injection E as <-. exact Hx. Qed.

  Definition fine (f : fate (holdings k * option obs)) : Prop :=
    match f with Goes (s, w) => all_hold s /\ (match w with Some o => from_digest o | None => True end) | _ => True end.

  Lemma fine_at s i f : all_hold s -> (forall x, I x -> fine (f x)) -> fine (at_slot k s i f).
  Proof using. intros H Hf. unfold at_slot. destruct (s i) eqn:E; [|exact Logic.I]. apply Hf. now apply (H i). Qed.
  Lemma fine_becomes s i x : all_hold s -> (forall y, x = Some y -> I y) -> fine (becomes k s i x).
  Proof using. intros H Hx. unfold becomes, if_there. destruct x as [y|]; [|exact Logic.I]. split; [|exact Logic.I]. apply hput_hold; auto. Qed.
  Lemma fine_shows s i f : all_hold s -> (forall d w, D d -> f d = Goes w -> from_digest w) -> fine (shows k s i f).
  Proof using Idigest.
    intros H Hf. unfold shows. apply fine_at; [exact H|]. intros x Hx. unfold if_there. destruct (k_digest k x) as [d|] eqn:E; [|exact Logic.I].
    specialize (Hf d). destruct (f d) as [w| | |]; try exact Logic.I. split; [exact H|]. apply (Hf w); [|reflexivity]. exact (Idigest x d Hx E).
  Qed.

  Lemma hstep_fine c s : all_hold s -> fine (hstep k c s).
  Proof using Inew Ifeed Ifin Ireset Icopy Imove Iassign Imassign Idigest.
    intros H. destruct c as [i a|i d|i|i|i|i|i n|i|i j|i j|i j|i j]; cbn [hstep].
    - split; [|exact Logic.I]. apply hput_hold; auto.
    - apply fine_at; [exact H|]. intros x Hx. apply fine_becomes; [exact H|]. intros y. now apply Ifeed.
    - apply fine_at; [exact H|]. intros x Hx. apply fine_becomes; [exact H|]. intros y. now apply Ifin.
    - apply fine_at; [exact H|]. intros x Hx. apply fine_becomes; [exact H|]. intros y. now apply Ireset.
    - apply fine_shows; [exact H|]. intros d w Hd E. injection E as <-. exists d. auto.
    - apply fine_shows; [exact H|]. intros d w Hd E. exists d. split; [exact Hd|]. destruct d; [discriminate|]. injection E as <-. right. left. split; [discriminate|reflexivity].
    - apply fine_shows; [exact H|]. intros d w Hd E. injection E as <-. exists d. eauto.
    - apply fine_shows; [exact H|]. intros d w Hd E. injection E as <-. exists d. eauto.
    - apply fine_at; [exact H|]. intros x Hx. apply fine_becomes; [exact H|]. intros y. now apply Icopy.
    - apply fine_at; [exact H|]. intros x Hx. destruct (Imove x Hx) as [H1 H2]. destruct (k_move k x) as [x1 x2].
      split; [|exact Logic.I]. apply hput_hold; [|exact H1]. now apply hput_hold.
    - apply fine_at; [exact H|]. intros x Hx. apply fine_at; [exact H|]. intros y Hy. destruct (i =? j); [split; [exact H|exact Logic.I]|].
      apply fine_becomes; [exact H|]. intros z. now apply Iassign.
    - apply fine_at; [exact H|]. intros x Hx. apply fine_at; [exact H|]. intros y Hy. destruct (i =? j); [split; [exact H|exact Logic.I]|].
      destruct (Imassign x y Hx Hy) as [H1 H2]. destruct (k_massign k x y) as [x1 x2].
      split; [|exact Logic.I]. apply hput_hold; [|exact H1]. now apply hput_hold.
  Qed.

  Theorem story_fine p : forall s os s', all_hold s -> story k p s = Goes (os, s') -> Forall from_digest os /\ all_hold s'.
  Proof using Inew Ifeed Ifin Ireset Icopy Imove Iassign Imassign Idigest.
    induction p as [|c p IH]; intros s os s' H E; cbn [story] in E; [injection E as <- <-; auto|].
    pose proof (hstep_fine c s H) as H1. destruct (hstep k c s) as [[s1 w]| | |]; try discriminate. destruct H1 as [H1 Hw].
    destruct (story k p s1) as [[os1 s2]| | |] eqn:E1; try discriminate. injection E as <- <-. destruct (IH _ _ _ H1 E1) as [H2 H3].
    split; [|exact H3]. destruct w; [constructor|]; assumption.
  Qed.
End Always.

(** ** every digest shown is empty or the output of the sponge for some input *)
Definition squeezed_by (r : nat) (sfx : Keccak.bits) (d : list N) : Prop := d = [] \/ exists n m, d = squeezed r sfx n m.
Definition tape_genuine (r : nat) (sfx : Keccak.bits) (x : tape) : Prop := squeezed_by r sfx (t_out x).
Lemma genuine_finalize r sfx x : tape_genuine r sfx x -> tape_genuine r sfx (t_finalize r sfx x).
Proof.
  unfold tape_genuine, t_finalize. intros H. destruct (t_out x) as [|b o] eqn:E; cbn [t_out]; [|exact H]. right. eauto.
Qed.

Theorem sha3_genuine t p os s : told (sha3_kind t) p = Goes (os, s) ->
  Forall (from_digest (squeezed_by (rate t) (suffix t))) os.
Proof.
  intros E. refine (proj1 (story_fine (sha3_kind t) (tape_genuine (rate t) (suffix t)) _ _ _ _ _ _ _ _ _ _ p _ os s _ E));
    cbn [sha3_kind Held k_new k_feed k_finalize k_reset k_copy k_move k_assign k_massign k_digest fst snd]; unfold tape_genuine.
  - intros a. now left.
  - intros m x y H Ey. injection Ey as <-. exact H.
  - intros x y H Ey. injection Ey as <-. now apply genuine_finalize.
  - intros x y H Ey. injection Ey as <-. now left.
  - intros x y H Ey. injection Ey as <-. exact H.
  - intros x H. split; [exact H|]. now left.
  - intros x y z _ H Ez. injection Ez as <-. exact H.
  - intros x y _ H. split; [exact H|]. now left.
  - intros x d H Ed. injection Ed as <-. exact H.
  - intros i x H. discriminate.
Qed.

Definition pair_genuine (r : nat) (w : pair) : Prop := forall b x, c_tapes w b = Some x -> tape_genuine r (cshake_suffix b) x.
Lemma on_tape_genuine r f w w' : (forall b x, tape_genuine r (cshake_suffix b) x -> tape_genuine r (cshake_suffix b) (f b x)) ->
  pair_genuine r w -> on_tape f w = Some w' -> pair_genuine r w'.
Proof.
  intros Hf H. unfold on_tape, selected. destruct (c_tapes w (c_custom w)) as [x|] eqn:E; [|discriminate]. intros E'. injection E' as <-.
  intros b y. cbn [c_tapes]. unfold change. destruct (eqb b (c_custom w)) eqn:Eb; [|apply H]. apply eqb_prop in Eb. subst b.
  intros Ey. injection Ey as <-. apply Hf. now apply (H (c_custom w)).
Qed.
Lemma trade_genuine r w v : pair_genuine r w -> pair_genuine r v -> pair_genuine r (fst (trade w v)) /\ pair_genuine r (snd (trade w v)).
Proof.
  intros Hw Hv. unfold trade. cbn [fst snd]. split; intros b x; cbn [c_tapes]; unfold change; destruct (eqb b (c_custom v)) eqn:Eb; auto;
    apply eqb_prop in Eb; subst b; auto.
Qed.
Lemma no_pair_genuine r : pair_genuine r no_pair.
Proof. intros b x H. discriminate. Qed.
Lemma new_genuine r a : pair_genuine r (cshake_new r a).
Proof.
  destruct a as [[d n] c]. intros b x. unfold cshake_new. cbn [c_tapes]. unfold change. destruct (eqb _ _); [|discriminate].
  intros E. injection E as <-. now left.
Qed.
Lemma copy_genuine r x y : pair_genuine r x -> cshake_copy x = Some y -> pair_genuine r y.
Proof.
  intros H. unfold cshake_copy, selected. destruct (c_tapes x (c_custom x)) as [z|] eqn:E; [|discriminate]. intros E'. injection E' as <-.
  intros b u. cbn [c_tapes]. unfold change. destruct (eqb b (c_custom x)) eqn:Eb; [|discriminate]. apply eqb_prop in Eb. subst b.
  intros Eu. injection Eu as <-. now apply (H (c_custom x)).
Qed.
Lemma assign_genuine r x y z : pair_genuine r x -> pair_genuine r y -> cshake_assign x y = Some z -> pair_genuine r z.
Proof.
  intros Hx Hy. unfold cshake_assign, selected. destruct (c_tapes x (c_custom y)); [|discriminate].
  destruct (c_tapes y (c_custom y)) as [u|] eqn:E; [|discriminate]. intros E'. injection E' as <-.
  intros b v. cbn [c_tapes]. unfold change. destruct (eqb b (c_custom y)) eqn:Eb; [|apply Hx]. apply eqb_prop in Eb. subst b.
  intros Ev. injection Ev as <-. now apply (Hy (c_custom y)).
Qed.
Definition cshake_squeezed (r : nat) (d : list N) : Prop := exists custom, squeezed_by r (cshake_suffix custom) d.
Lemma digest_genuine r x d : pair_genuine r x -> digest_of x = Some d -> cshake_squeezed r d.
Proof.
  intros H. unfold digest_of, selected. destruct (c_tapes x (c_custom x)) as [u|] eqn:E; [|discriminate]. intros E'. injection E' as <-.
  exists (c_custom x). now apply (H (c_custom x)).
Qed.

Theorem cshake_genuine r p os s : told (cshake_kind r) p = Goes (os, s) -> Forall (from_digest (cshake_squeezed r)) os.
Proof.
  intros E. refine (proj1 (story_fine (cshake_kind r) (pair_genuine r) _ _ _ _ _ _ _ _ _ _ p _ os s _ E));
    cbn [cshake_kind Held k_new k_feed k_finalize k_reset k_copy k_move k_assign k_massign k_digest].
  - apply new_genuine.
  - intros m x y H. apply on_tape_genuine; [|exact H]. auto.
  - intros x y H. apply on_tape_genuine; [|exact H]. intros b z. apply genuine_finalize.
  - intros x y H. apply on_tape_genuine; [|exact H]. intros b z _. now left.
  - apply copy_genuine.
  - intros x H. apply trade_genuine; [apply no_pair_genuine|exact H].
  - apply assign_genuine.
  - intros x y. apply trade_genuine.
  - apply digest_genuine.
  - intros i x H. discriminate.
Qed.

Lemma also_inv {A B} (b : B) (x : option A) y : also b x = Some y -> x = Some (fst y).
Proof. destruct x; [|discriminate]. intros E. now injection E as <-. Qed.

Theorem tuple_genuine r p os s : told (tuple_kind r) p = Goes (os, s) -> Forall (from_digest (cshake_squeezed r)) os.
Proof.
  intros E. refine (proj1 (story_fine (tuple_kind r) (fun x => pair_genuine r (fst x)) _ _ _ _ _ _ _ _ _ _ p _ os s _ E));
    cbn [tuple_kind Held k_new k_feed k_finalize k_reset k_copy k_move k_assign k_massign k_digest both fst snd].
  - intros a. apply new_genuine.
  - intros m x y H Ey. apply also_inv in Ey. revert Ey. apply on_tape_genuine; [|exact H]. auto.
  - intros x y H Ey. destruct (on_tape _ (fst x)) as [w|] eqn:Ew; [|discriminate]. apply also_inv in Ey. revert Ey.
    apply on_tape_genuine; [intros b z; apply genuine_finalize|]. revert Ew. apply on_tape_genuine; [|exact H]. auto.
  - intros x y H Ey. apply also_inv in Ey. revert Ey. apply on_tape_genuine; [|exact H]. intros b z _. now left.
  - intros x y H Ey. apply also_inv in Ey. revert Ey. apply copy_genuine, H.
  - intros x H. apply trade_genuine; [apply no_pair_genuine|exact H].
  - intros x y z H H' Ez. apply also_inv in Ez. revert Ez. now apply assign_genuine.
  - intros x y H H'. now apply trade_genuine.
  - intros x d H. now apply digest_genuine.
  - intros i x H. discriminate.
Qed.

(** ** SHA-3 and SHAKE objects after any history *)
Section Sha3.
  Variables (t : keccak_type) (dbg : bool).
  Notation K := (sha3_kind t).

  Lemma obeys_app p q os s os' s' : Forall (in_order length_ok span_ok) (p ++ q) -> told K p = Goes (os, s) -> story K q s = Goes (os', s') ->
    exists st, oexec (objects t dbg) (p ++ q) (fun _ => None) = Ok (os ++ os', st).
  Proof.
    intros Hp E1 E2. pose proof (sha3_told t dbg _ Hp) as H. unfold told in H. rewrite story_app in H. unfold told in E1. rewrite E1, E2 in H. exact H.
  Qed.

  Theorem sha3_recovers p os s i x m : Forall (in_order length_ok span_ok) p -> span_ok m -> told K p = Goes (os, s) -> s i = Some x ->
    exists st, oexec (objects t dbg) (p ++ [Rst i; Feed i m; Fin i; Vec i]) (fun _ => None) = Ok (os ++ [OBytes (output t (t_len x) m)], st).
  Proof.
    intros Hp Hm E1 Ex. eapply obeys_app; [|exact E1|].
    - apply Forall_app. split; [exact Hp|]. repeat constructor; apply Hm.
    - cbn [story hstep]. unfold at_slot at 1. rewrite Ex.
      cbn [sha3_kind k_reset becomes if_there]. unfold at_slot at 1, hput at 1. rewrite Nat.eqb_refl.
      cbn [sha3_kind k_feed becomes if_there]. unfold at_slot at 1, hput at 1. rewrite Nat.eqb_refl.
      cbn [sha3_kind k_finalize becomes if_there]. unfold shows, at_slot at 1, hput at 1. rewrite Nat.eqb_refl.
      cbn [sha3_kind k_digest if_there]. reflexivity.
  Qed.

  Theorem sha3_moved p os s i j x : Forall (in_order length_ok span_ok) p -> told K p = Goes (os, s) -> s j = Some x -> i <> j ->
    exists st, oexec (objects t dbg) (p ++ [MoveConstruct i j; Vec j; Fin j; Vec j]) (fun _ => None) =
      Ok (os ++ [OBytes []; OBytes (output t (t_len x) (t_in x))], st).
  Proof.
    intros Hp E1 Ex Hij. eapply obeys_app; [|exact E1|].
    - apply Forall_app. split; [exact Hp|]. repeat constructor. exact Hij.
    - cbn [story hstep]. unfold at_slot at 1. rewrite Ex. cbn [sha3_kind k_move].
      assert (j =? i = false) as Hji by (apply Nat.eqb_neq; auto).
      unfold shows at 1, at_slot at 1. unfold hput at 1. rewrite Hji. unfold hput at 1. rewrite Nat.eqb_refl. cbn [sha3_kind k_digest if_there t_moved t_out].
      unfold at_slot at 1. unfold hput at 1. rewrite Hji. unfold hput at 1. rewrite Nat.eqb_refl. cbn [sha3_kind k_finalize becomes if_there].
      unfold shows at 1, at_slot at 1. unfold hput at 1. rewrite Nat.eqb_refl. cbn [sha3_kind k_digest if_there]. reflexivity.
  Qed.
End Sha3.

(** ** as stated in Props *)
Theorem sha3_reads t dbg p os st : Forall (in_order length_ok span_ok) p -> oexec (objects t dbg) p (fun _ => None) = Ok (os, st) ->
  Forall (from_digest (squeezed_by (rate t) (suffix t))) os.
Proof. intros Hp E. destruct (obeys_ok _ _ _ _ (sha3_told t dbg p Hp) E) as (s & Es). exact (sha3_genuine t p os s Es). Qed.

Theorem cshake_reads lg dbg p os (st : nat -> option Model.CShake.Obj) : log2_accurate lg -> Forall (in_order ok_cargs span_ok) p ->
  (oexec (Model.CShake.cls128 lg dbg) p (fun _ => None) = Ok (os, st) -> Forall (from_digest (cshake_squeezed rate128)) os) /\
  (oexec (Model.CShake.cls256 lg dbg) p (fun _ => None) = Ok (os, st) -> Forall (from_digest (cshake_squeezed rate256)) os).
Proof.
  intros Hl Hp. destruct (cshake_told lg dbg p Hl Hp) as [H1 H2]. split; intros E.
  - destruct (obeys_ok _ _ _ _ H1 E) as (s & Es). exact (cshake_genuine rate128 p os s Es).
  - destruct (obeys_ok _ _ _ _ H2 E) as (s & Es). exact (cshake_genuine rate256 p os s Es).
Qed.

Theorem tuple_reads lg dbg p os (st : nat -> option Model.TupleHash.Obj) : log2_accurate lg -> Forall (in_order ok_targs short) p ->
  (oexec (Model.TupleHash.cls128 lg dbg) p (fun _ => None) = Ok (os, st) -> Forall (from_digest (cshake_squeezed rate128)) os) /\
  (oexec (Model.TupleHash.cls256 lg dbg) p (fun _ => None) = Ok (os, st) -> Forall (from_digest (cshake_squeezed rate256)) os).
Proof.
  intros Hl Hp. destruct (tuple_told lg dbg p Hl Hp) as [H1 H2]. split; intros E.
  - destruct (obeys_ok _ _ _ _ H1 E) as (s & Es). exact (tuple_genuine rate128 p os s Es).
  - destruct (obeys_ok _ _ _ _ H2 E) as (s & Es). exact (tuple_genuine rate256 p os s Es).
Qed.
