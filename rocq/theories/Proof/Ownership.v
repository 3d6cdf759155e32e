(** Programs over cSHAKE and TupleHash objects in any order: exactly those go through that Spec/Ownership.v says. *)
From Coq Require Import List NArith ZArith Arith Bool Lia.
From Verif.Base Require Import Res CWord Double.
From Verif.Spec Require Import Words Client ObjClient Log2 Sp800185 CShakeArgs Ownership.
From Verif.Model Require Import Buffer Stream Api ObjApi.
From Verif.Spec Require Keccak.
From Verif.Model Require CShake TupleHash Keccak.
From Verif.Proof Require Import Words Streaming Blocks Double Api ObjApi Encode.
From Verif.Proof Require Keccak CShake TupleHash AnyOrder AnyOrderLibrary.
Import ListNotations.
Module M := Verif.Model.CShake.
Module T := Verif.Model.TupleHash.
Module K := Verif.Model.Keccak.
Module A := Verif.Proof.AnyOrderLibrary.
Module PC := Verif.Proof.CShake.

Definition changed (w : owner) (p : part) : owner := mkOwner (w_custom w) (with_part (w_parts w) (w_custom w) (Some p)).

Record Owns (C : ObjClass) (custom : Args C -> bool) (len : Args C -> nat) (ok_args : Args C -> Prop) (ok_item : list N -> Prop)
    (rel : owner -> OObj C -> Prop) : Prop := mkOwns {
  ow_construct : forall a, ok_args a -> exists x, oc_construct C a = Ok x /\ rel (created custom len a) x;
  ow_feed : forall w x d, rel w x -> ok_item d ->
    match in_use w with
    | Some p => exists y, oc_feed C d x = Ok y /\ rel (changed w (mkPart (p_len p) (p_done p))) y
    | None => oc_feed C d x = Ub NullDeref
    end;
  ow_fin : forall w x, rel w x ->
    match in_use w with
    | Some p => exists y, oc_finalize C x = Ok y /\ rel (changed w (mkPart (p_len p) true)) y
    | None => oc_finalize C x = Ub NullDeref
    end;
  ow_reset : forall w x, rel w x ->
    match in_use w with
    | Some p => exists y, oc_reset C x = Ok y /\ rel (changed w (mkPart (p_len p) false)) y
    | None => oc_reset C x = Ub NullDeref
    end;
  ow_vec : forall w x, rel w x ->
    match in_use w with
    | Some p => exists d, oc_vector C x = Ok d /\ bytes_ok d /\ length d = if p_done p then p_len p else 0
    | None => oc_vector C x = Ub NullDeref
    end;
  ow_copy : forall w x, rel w x ->
    match in_use w with
    | Some p => exists y, oc_copy C x = Ok y /\ rel (mkOwner (w_custom w) (with_part (fun _ => None) (w_custom w) (Some p))) y
    | None => oc_copy C x = Ub NullDeref
    end;
  ow_move : forall w x, rel w x ->
    rel (fst (exchange nothing w)) (fst (oc_move C x)) /\ rel (snd (exchange nothing w)) (snd (oc_move C x));
  ow_assign : forall w v x y, rel w x -> rel v y ->
    match w_parts w (w_custom v), in_use v with
    | Some _, Some p => exists z, oc_assign C x y = Ok z /\ rel (mkOwner (w_custom v) (with_part (w_parts w) (w_custom v) (Some p))) z
    | _, _ => oc_assign C x y = Ub NullDeref
    end;
  ow_massign : forall w v x y, rel w x -> rel v y ->
    rel (fst (exchange w v)) (fst (oc_massign C x y)) /\ rel (snd (exchange w v)) (snd (oc_massign C x y))
}.

Section Exact.
  Context {C : ObjClass} {custom : Args C -> bool} {len : Args C -> nat} {ok_args : Args C -> Prop} {ok_item : list N -> Prop}.
  Context {rel : owner -> OObj C -> Prop}.
  Hypothesis HO : Owns C custom len ok_args ok_item rel.

  Definition srel (w : option owner) (x : option (OObj C)) : Prop :=
    match w, x with None, None => True | Some w, Some x => rel w x | _, _ => False end.
  Definition all_rel (s : owners) (st : ostore C) : Prop := forall k, srel (s k) (st k).

  Lemma put_all s st i w x : all_rel s st -> rel w x -> all_rel (wput s i w) (sput C st i x).
  Proof. intros H Hw k. unfold wput, sput. destruct (k =? i); [exact Hw|apply H]. Qed.

  (** what a command does to the store, when it goes through *)
  Definition agrees1 (f : fate owners) (r : res (ostore C * option obs)) : Prop :=
    match f with
    | Goes s => exists st w, r = Ok (st, w) /\ all_rel s st
    | NullPointer => r = Ub NullDeref
    | TextOfNothing => r = Ub EmptyFront
    | NoSuchObject => r = Ub UninitRead
    end.

  Lemma with_object_ok s st i kf km : all_rel s st ->
    (forall w x, rel w x -> agrees1 (kf w) (km x)) ->
    agrees1 (with_object s i kf) (let! x := sget C st i in km x).
  Proof.
    intros H Hk. specialize (H i). unfold with_object, sget, srel in *. destruct (s i), (st i); try contradiction; [|reflexivity].
    rewrite bind_ok. now apply Hk.
  Qed.

  Lemma update_ok s st i (b : part -> bool) (f : OObj C -> res (OObj C)) : all_rel s st ->
    (forall w x, rel w x -> match in_use w with
      | Some p => exists y, f x = Ok y /\ rel (changed w (mkPart (p_len p) (b p))) y | None => f x = Ub NullDeref end) ->
    agrees1 (set_done s i b) (update C st i f).
  Proof.
    intros H Hf. unfold set_done, with_sponge, update. apply with_object_ok; [exact H|]. intros w x Hw. specialize (Hf w x Hw).
    destruct (in_use w) as [p|].
    - destruct Hf as (y & E & Hy). rewrite E, bind_ok. eexists. eexists. split; [reflexivity|]. now apply put_all.
    - now rewrite Hf.
  Qed.

  Lemma observe_ok s st i (g : part -> bool) (f : list N -> res obs) : all_rel s st ->
    (forall p d, bytes_ok d -> length d = (if p_done p then p_len p else 0) ->
      if g p then exists w, f d = Ok w else f d = Ub EmptyFront) ->
    agrees1 (with_sponge s i (fun _ p => if g p then Goes s else TextOfNothing)) (observe C st i f).
  Proof.
    intros H Hf. unfold with_sponge, observe. apply with_object_ok; [exact H|]. intros w x Hw. pose proof (ow_vec _ _ _ _ _ _ HO w x Hw) as Hv.
    destruct (in_use w) as [p|].
    - destruct Hv as (d & E & Hd & Hl). rewrite E, bind_ok. specialize (Hf p d Hd Hl). destruct (g p).
      + destruct Hf as (w' & ->). rewrite bind_ok. eexists. eexists. split; [reflexivity|exact H].
      + now rewrite Hf.
    - now rewrite Hv.
  Qed.

  Lemma fate1_ok c s st : all_rel s st -> in_order ok_args ok_item c -> agrees1 (fate1 custom len c s) (exec_ocmd C c st).
  Proof.
    intros H Hc. destruct c as [i a|i d|i|i|i|i|i n|i|i j|i j|i j|i j]; cbn [fate1 exec_ocmd in_order] in *.
    - destruct (ow_construct _ _ _ _ _ _ HO a Hc) as (x & -> & Hx). rewrite bind_ok. eexists. eexists. split; [reflexivity|]. now apply put_all.
    - apply update_ok; [exact H|]. intros w x Hw. exact (ow_feed _ _ _ _ _ _ HO w x d Hw Hc).
    - apply update_ok; [exact H|]. intros w x Hw. exact (ow_fin _ _ _ _ _ _ HO w x Hw).
    - apply update_ok; [exact H|]. intros w x Hw. exact (ow_reset _ _ _ _ _ _ HO w x Hw).
    - apply (observe_ok s st i (fun _ => true)); [exact H|]. intros p d _ _. eauto.
    - apply observe_ok; [exact H|]. intros p d Hd Hl. destruct (p_done p); cbn [andb].
      + destruct (Nat.eqb_spec (p_len p) 0) as [E|E]; cbn [negb].
        * rewrite E in Hl. destruct d; [reflexivity|discriminate].
        * rewrite to_string_ok; [rewrite bind_ok; eauto|exact Hd|]. intros ->. cbn in Hl. congruence.
      + destruct d; [reflexivity|discriminate].
    - apply (observe_ok s st i (fun _ => true)); [exact H|]. intros p d Hd _. rewrite to_uint_ok by exact Hd. rewrite bind_ok. eauto.
    - apply (observe_ok s st i (fun _ => true)); [exact H|]. intros p d Hd _. unfold std_hash. rewrite to_uint_ok by exact Hd. rewrite bind_ok. eauto.
    - unfold with_sponge. apply with_object_ok; [exact H|]. intros w x Hw. pose proof (ow_copy _ _ _ _ _ _ HO w x Hw) as Hv.
      destruct (in_use w) as [p|]; [|now rewrite Hv]. destruct Hv as (y & -> & Hy). rewrite bind_ok.
      eexists. eexists. split; [reflexivity|]. now apply put_all.
    - apply with_object_ok; [exact H|]. intros w x Hw. destruct (ow_move _ _ _ _ _ _ HO w x Hw) as [H1 H2].
      destruct (exchange nothing w) as [w1 w2], (oc_move C x) as [x1 x2]. cbn [fst snd] in *.
      eexists. eexists. split; [reflexivity|]. apply put_all; [|exact H1]. now apply put_all.
    - apply with_object_ok; [exact H|]. intros w x Hw. apply with_object_ok; [exact H|]. intros v y Hv.
      destruct (i =? j); [eexists; eexists; split; [reflexivity|exact H]|].
      pose proof (ow_assign _ _ _ _ _ _ HO w v x y Hw Hv) as Ha.
      destruct (w_parts w (w_custom v)); [destruct (in_use v)|]; try (now rewrite Ha).
      destruct Ha as (z & -> & Hz). rewrite bind_ok. eexists. eexists. split; [reflexivity|]. now apply put_all.
    - apply with_object_ok; [exact H|]. intros w x Hw. apply with_object_ok; [exact H|]. intros v y Hv.
      destruct (i =? j); [eexists; eexists; split; [reflexivity|exact H]|].
      destruct (ow_massign _ _ _ _ _ _ HO w v x y Hw Hv) as [H1 H2].
      destruct (exchange w v) as [w1 w2], (oc_massign C x y) as [x1 x2]. cbn [fst snd] in *.
      eexists. eexists. split; [reflexivity|]. apply put_all; [|exact H1]. now apply put_all.
  Qed.

  Theorem exact_from p : Forall (in_order ok_args ok_item) p -> forall s st, all_rel s st ->
    match fate_of custom len p s with
    | Goes _ => exists os st', oexec C p st = Ok (os, st')
    | NullPointer => oexec C p st = Ub NullDeref
    | TextOfNothing => oexec C p st = Ub EmptyFront
    | NoSuchObject => oexec C p st = Ub UninitRead
    end.
  Proof.
    induction 1 as [|c p Hc Hp IH]; intros s st H; cbn [fate_of oexec]; [eauto|].
    pose proof (fate1_ok c s st H Hc) as H1. destruct (fate1 custom len c s) as [s1| | |]; cbn [agrees1] in H1; try (now rewrite H1).
    destruct H1 as (st1 & w & -> & H1). rewrite bind_ok. cbn [fst snd]. specialize (IH s1 st1 H1).
    destruct (fate_of custom len p s1) as [s2| | |]; try (now rewrite IH).
    destruct IH as (os & st' & ->). rewrite bind_ok. eexists. eexists. reflexivity.
  Qed.

  Theorem exact_all p : Forall (in_order ok_args ok_item) p ->
    match fate_of custom len p (fun _ => None) with
    | Goes _ => exists x, oexec C p (fun _ => None) = Ok x
    | NullPointer => oexec C p (fun _ => None) = Ub NullDeref
    | TextOfNothing => oexec C p (fun _ => None) = Ub EmptyFront
    | NoSuchObject => oexec C p (fun _ => None) = Ub UninitRead
    end.
  Proof.
    intros Hp. pose proof (exact_from p Hp (fun _ => None) (fun _ => None) (fun _ => I)) as H. destruct (fate_of custom len p (fun _ => None)); try exact H.
    destruct H as (os & st & E). eauto.
  Qed.
End Exact.

(** ** the simple rule *)
Section Careful.
  Context {Args : Type} {custom : Args -> bool} {len : Args -> nat}.
  Definition sees (v : user_view) (w : option owner) : Prop :=
    match v with
    | NotYet => True
    | Gone => exists w', w = Some w'
    | Here c p => exists w', w = Some w' /\ w_custom w' = c /\ w_parts w' c = Some p
    end.

  Lemma sees_put s (t : owners) i v w : (forall k, sees (s k) (t k)) -> sees v (Some w) -> forall k, sees (uput s i v k) (wput t i w k).
  Proof. intros H Hv k. unfold uput, wput. destruct (k =? i); [exact Hv|apply H]. Qed.
  Lemma part_same f c p : with_part f c p c = p.
  Proof. unfold with_part. now rewrite eqb_reflx. Qed.

  Theorem careful_goes p s : careful custom len p s -> forall t, (forall k, sees (s k) (t k)) -> exists t', fate_of custom len p t = Goes t'.
  Proof.
    induction 1 as [s|i a rest s _ IH|i d rest s c p E _ IH|i rest s c p E _ IH|i rest s c p E _ IH|i rest s c p E _ IH|i n rest s c p E _ IH|
      i rest s c p E _ IH|i rest s c p E Hd Hn _ IH|i j rest s c p E _ IH|i j rest s c p E _ IH|i j rest s c p q Ei E _ IH|i j rest s c p N Ni E _ IH];
      intros t Ht; cbn [fate_of fate1]; [eauto|apply IH; apply sees_put; [exact Ht|]; eexists; split; [reflexivity|]; cbn [created w_custom w_parts]; split; [reflexivity|apply part_same]| | | | | | | | | | |];
      pose proof (Ht i) as Hi;
      try (pose proof (Ht j) as Hj; rewrite E in Hj; destruct Hj as (v & Ej & Ec & Ep); subst c);
      try (rewrite E in Hi; destruct Hi as (w & Ew & Ec & Ep); subst c);
      unfold set_done, with_sponge, with_object, in_use; rewrite ?Ew, ?Ej, ?Ep.
    - apply IH. intros k. unfold wput. destruct (Nat.eqb_spec k i) as [->|]; [|apply Ht]. rewrite E. eexists. split; [reflexivity|].
      cbn [w_custom w_parts]. split; [reflexivity|]. rewrite part_same. now destruct p.
    - apply IH, sees_put; [exact Ht|]. eexists. split; [reflexivity|]. split; [reflexivity|apply part_same].
    - apply IH, sees_put; [exact Ht|]. eexists. split; [reflexivity|]. split; [reflexivity|apply part_same].
    - now apply IH.
    - now apply IH.
    - now apply IH.
    - rewrite Hd. destruct (Nat.eqb_spec (p_len p) 0); [contradiction|]. cbn [andb negb]. now apply IH.
    - apply IH, sees_put; [exact Ht|]. eexists. split; [reflexivity|]. split; [reflexivity|apply part_same].
    - unfold exchange. apply IH, sees_put; [apply sees_put; [exact Ht|cbn; eauto]|]. eexists. split; [reflexivity|].
      cbn [w_custom w_parts]. split; [reflexivity|]. now rewrite part_same.
    - rewrite Ei in Hi. destruct Hi as (w & Ew & Ec & Eq). rewrite Ew, Eq. destruct (Nat.eqb_spec i j) as [->|N].
      + apply IH. intros k. unfold uput. destruct (Nat.eqb_spec k j) as [->|]; [|apply Ht]. exists v. split; [exact Ej|]. split; [reflexivity|exact Ep].
      + apply IH, sees_put; [exact Ht|]. eexists. split; [reflexivity|]. cbn [w_custom w_parts]. split; [reflexivity|]. now rewrite part_same.
    - assert (exists w, t i = Some w) as (w & Ew). { destruct (s i) as [| |c' p']; [congruence|exact Hi|]. destruct Hi as (w & Ew & _). eauto. }
      rewrite Ew. destruct (Nat.eqb_spec i j) as [|_]; [contradiction|]. unfold exchange.
      apply IH, sees_put; [apply sees_put; [exact Ht|cbn; eauto]|]. eexists. split; [reflexivity|].
      cbn [w_custom w_parts]. split; [reflexivity|]. now rewrite part_same.
  Qed.
End Careful.

Lemma digest_bits l : (0 <= l < 2 ^ 28)%Z -> T.imul l 8 = Ok (l * 8)%Z /\ T.to_u64 (l * 8) = (8 * N.of_nat (Z.to_nat l))%N /\
  (8 * N.of_nat (Z.to_nat l) <= 2 ^ 56 - 2 ^ 8)%N.
Proof.
  intros H. change (2 ^ 28)%Z with 268435456%Z in H. split.
  - unfold T.imul. change (- 2 ^ 31)%Z with (-2147483648)%Z. change (2 ^ 31)%Z with 2147483648%Z.
    destruct (Z.leb_spec (-2147483648) (l * 8)), (Z.ltb_spec (l * 8) 2147483648); try lia. reflexivity.
  - unfold T.to_u64. rewrite Z.mod_small by (change (2 ^ 64)%Z with 18446744073709551616%Z; lia).
    change (2 ^ 56 - 2 ^ 8)%N with 72057594037927680%N. lia.
Qed.

(** ** cshake.h *)
Section CShakeOwns.
  Variables (log2 : N -> N) (dbg : bool).
  Hypothesis Hlog : log2_accurate log2.
  Variables (q : nat) (sufS sufK : N).
  Hypothesis Hq : 0 < q.
  Hypothesis Hq25 : q <= 25.
  Hypothesis HS : (sufS < 128)%N.
  Hypothesis HK : (sufK < 128)%N.
  Let R := 8 * q.
  Let P := N.of_nat R.

  Definition prel (p : option part) (x : option (Buffer * K.St)) : Prop :=
    match p, x with None, None => True | Some p, Some x => A.sponge_ok q (p_len p) (p_done p) x | _, _ => False end.
  Definition wrel (w : owner) (o : M.Obj) : Prop :=
    M.m_customized o = w_custom w /\ prel (w_parts w false) (M.m_shake o) /\ prel (w_parts w true) (M.m_keccak o).

  Lemma selected_ok (b : part -> bool) (f : N -> Buffer * K.St -> res (Buffer * K.St)) w o : wrel w o ->
    (forall suf p x, (suf < 128)%N -> A.sponge_ok q (p_len p) (p_done p) x -> exists y, f suf x = Ok y /\ A.sponge_ok q (p_len p) (b p) y) ->
    match in_use w with
    | Some p => exists o', M.on_selected sufS sufK f o = Ok o' /\ wrel (changed w (mkPart (p_len p) (b p))) o'
    | None => M.on_selected sufS sufK f o = Ub NullDeref
    end.
  Proof using HS HK.
    intros (H1 & H2 & H3) Hf. unfold M.on_selected, in_use, changed, wrel. rewrite H1. destruct w as [[|] ps]; cbn [w_custom w_parts negb] in *; unfold with_part; cbn [eqb].
    - destruct (ps true) as [p|], (M.m_keccak o) as [x|]; cbn [prel] in H3; try contradiction; [|reflexivity].
      cbn [M.deref]. rewrite bind_ok. destruct (Hf sufK p x HK H3) as (y & -> & Hy). rewrite bind_ok. eexists. split; [reflexivity|].
      cbn [M.m_customized M.m_shake M.m_keccak]. split; [reflexivity|]. split; [exact H2|exact Hy].
    - destruct (ps false) as [p|], (M.m_shake o) as [x|]; cbn [prel] in H2; try contradiction; [|reflexivity].
      cbn [M.deref]. rewrite bind_ok. destruct (Hf sufS p x HS H2) as (y & -> & Hy). rewrite bind_ok. eexists. split; [reflexivity|].
      cbn [M.m_customized M.m_shake M.m_keccak]. split; [reflexivity|]. split; [exact Hy|exact H3].
  Qed.

  Lemma new_ok n : A.sponge_ok q n false (K.new R n).
  Proof using Hq Hq25. exact (AnyOrder.ro_new _ _ _ _ _ (A.keccak_robust q 0 true n Hq Hq25 eq_refl)). Qed.

  Lemma reset_sponge p x : A.sponge_ok q (p_len p) (p_done p) x -> A.sponge_ok q (p_len p) false (K.reset x).
  Proof using Hq Hq25. intros H. exact (AnyOrder.ro_reset _ _ _ _ _ (A.keccak_robust q 0 true (p_len p) Hq Hq25 eq_refl) _ x H). Qed.

  Lemma feed_rel w o d : wrel w o -> span_ok d ->
    match in_use w with
    | Some p => exists o', M.addData R sufS sufK dbg d o = Ok o' /\ wrel (changed w (mkPart (p_len p) (p_done p))) o'
    | None => M.addData R sufS sufK dbg d o = Ub NullDeref
    end.
  Proof using Hq Hq25 HS HK.
    intros H Hd. apply selected_ok; [exact H|]. intros suf p x _ Hx. destruct (A.sponge_add q dbg (p_len p) Hq Hq25 (p_done p) x d Hx Hd) as (y & E & Hy & _). eauto.
  Qed.

  Lemma fin_rel w o : wrel w o ->
    match in_use w with
    | Some p => exists o', M.finalize R sufS sufK dbg o = Ok o' /\ wrel (changed w (mkPart (p_len p) true)) o'
    | None => M.finalize R sufS sufK dbg o = Ub NullDeref
    end.
  Proof using Hq Hq25 HS HK.
    intros H. apply (selected_ok (fun _ => true)); [exact H|]. intros suf p x Hs Hx.
    destruct (A.sponge_finalize q suf dbg (p_len p) Hq Hq25 Hs (p_done p) x Hx) as (y & E & Hy & _). eauto.
  Qed.

  Lemma reset_rel w o : wrel w o ->
    match in_use w with
    | Some p => exists o', M.reset sufS sufK o = Ok o' /\ wrel (changed w (mkPart (p_len p) false)) o'
    | None => M.reset sufS sufK o = Ub NullDeref
    end.
  Proof using Hq Hq25 HS HK.
    intros H. apply (selected_ok (fun _ => false)); [exact H|]. intros suf p x Hs Hx. eexists. split; [reflexivity|]. now apply reset_sponge.
  Qed.

  Lemma vec_rel w o : wrel w o ->
    match in_use w with
    | Some p => exists d, M.toVector o = Ok d /\ bytes_ok d /\ length d = if p_done p then p_len p else 0
    | None => M.toVector o = Ub NullDeref
    end.
  Proof using.
    intros (H1 & H2 & H3). unfold M.toVector, in_use. rewrite H1. destruct w as [[|] ps]; cbn [w_custom w_parts negb] in *.
    - destruct (ps true) as [p|], (M.m_keccak o) as [x|]; cbn [prel] in H3; try contradiction; [|reflexivity].
      cbn [M.deref]. rewrite bind_ok. destruct H3 as (_ & _ & _ & H4 & H5). eexists. split; [reflexivity|]. split; [exact H4|].
      destruct (p_done p); [exact H5|now rewrite H5].
    - destruct (ps false) as [p|], (M.m_shake o) as [x|]; cbn [prel] in H2; try contradiction; [|reflexivity].
      cbn [M.deref]. rewrite bind_ok. destruct H2 as (_ & _ & _ & H4 & H5). eexists. split; [reflexivity|]. split; [exact H4|].
      destruct (p_done p); [exact H5|now rewrite H5].
  Qed.

  Lemma copy_rel w o : wrel w o ->
    match in_use w with
    | Some p => exists o', M.copy_construct o = Ok o' /\ wrel (mkOwner (w_custom w) (with_part (fun _ => None) (w_custom w) (Some p))) o'
    | None => M.copy_construct o = Ub NullDeref
    end.
  Proof using.
    intros (H1 & H2 & H3). unfold M.copy_construct, in_use, wrel. rewrite H1. destruct w as [[|] ps]; cbn [w_custom w_parts negb] in *; unfold with_part; cbn [eqb].
    - destruct (ps true) as [p|], (M.m_keccak o) as [x|]; cbn [prel] in H3; try contradiction; [|reflexivity].
      cbn [M.deref]. rewrite bind_ok. eexists. split; [reflexivity|]. split; [reflexivity|]. split; [exact I|exact H3].
    - destruct (ps false) as [p|], (M.m_shake o) as [x|]; cbn [prel] in H2; try contradiction; [|reflexivity].
      cbn [M.deref]. rewrite bind_ok. eexists. split; [reflexivity|]. split; [reflexivity|]. split; [exact H2|exact I].
  Qed.

  Lemma swap_rel w v x y : wrel w x -> wrel v y ->
    wrel (fst (exchange w v)) (fst (M.swap_selected x y)) /\ wrel (snd (exchange w v)) (snd (M.swap_selected x y)).
  Proof using.
    intros (H1 & H2 & H3) (G1 & G2 & G3). unfold M.swap_selected, exchange, wrel. rewrite G1, H1.
    destruct v as [[|] ps]; cbn [w_custom w_parts negb fst snd M.m_customized M.m_shake M.m_keccak] in *; unfold with_part; cbn [eqb]; auto 8.
  Qed.

  Lemma nothing_rel : wrel nothing (M.mkObj false None None).
  Proof using. split; [reflexivity|]. split; exact I. Qed.

  Lemma assign_rel w v x y : wrel w x -> wrel v y ->
    match w_parts w (w_custom v), in_use v with
    | Some _, Some p => exists z, M.copy_assign x y = Ok z /\ wrel (mkOwner (w_custom v) (with_part (w_parts w) (w_custom v) (Some p))) z
    | _, _ => M.copy_assign x y = Ub NullDeref
    end.
  Proof using.
    intros (H1 & H2 & H3) (G1 & G2 & G3). unfold M.copy_assign, in_use, wrel. rewrite G1. destruct v as [[|] ps]; cbn [w_custom w_parts negb] in *; unfold with_part; cbn [eqb].
    - destruct (w_parts w true) as [p|], (M.m_keccak x) as [u|]; cbn [prel] in H3; try contradiction; [|reflexivity].
      destruct (ps true) as [p'|], (M.m_keccak y) as [u'|]; cbn [prel] in G3; try contradiction; [|reflexivity].
      cbn [M.deref]. rewrite !bind_ok. eexists. split; [reflexivity|]. split; [reflexivity|]. split; [exact H2|exact G3].
    - destruct (w_parts w false) as [p|], (M.m_shake x) as [u|]; cbn [prel] in H2; try contradiction; [|reflexivity].
      destruct (ps false) as [p'|], (M.m_shake y) as [u'|]; cbn [prel] in G2; try contradiction; [|reflexivity].
      cbn [M.deref]. rewrite !bind_ok. eexists. split; [reflexivity|]. split; [reflexivity|]. split; [exact G2|exact H3].
  Qed.

  (** the constructor *)
  Definition fresh (n : nat) : owner := mkOwner true (with_part (fun _ => None) true (Some (mkPart n false))).

  Lemma fresh_feed n o d : wrel (fresh n) o -> span_ok d -> exists o', M.addData R sufS sufK dbg d o = Ok o' /\ wrel (fresh n) o'.
  Proof using Hq Hq25 HS HK. intros H Hd. exact (feed_rel (fresh n) o d H Hd). Qed.

  Lemma process_rel n o s z : wrel (fresh n) o -> short s ->
    exists o' z', M.processString log2 R sufS sufK dbg s o z = Ok (o', z') /\ wrel (fresh n) o'.
  Proof using Hlog Hq Hq25 HS HK.
    intros H Hs. unfold M.processString. pose proof (PC.short_len s Hs) as Hsl. pose proof (proj2 Hs) as Hb.
    assert (umul 64 (N.of_nat (length s)) 8 = bit_length s) as ->.
    { unfold umul. rewrite trunc_id; [unfold bit_length; lia|]. unfold bnd. change (2 ^ 53)%N with 9007199254740992%N in Hsl.
      change (2 ^ 64)%N with 18446744073709551616%N. lia. }
    rewrite (leftEncode_ok log2 dbg Hlog _ Hb), bind_ok, canon_span, canon_size.
    pose proof (left_encode_length _ (max_2040 _ Hb)) as LL. pose proof (left_encode_bytes _ (max_2040 _ Hb)) as LB.
    destruct (fresh_feed n o (left_encode (bit_length s)) H) as (o1 & -> & H1); [apply PC.small_span; [exact LB|lia]|]. rewrite bind_ok.
    destruct (fresh_feed n o1 s H1 (PC.short_span s Hs)) as (o2 & -> & H2). rewrite bind_ok. eauto.
  Qed.

  Lemma zeros_rel n : forall k f o, wrel (fresh n) o ->
    exists o', for_ f k (fun _ o => M.addData R sufS sufK dbg [0%N] o) o = Ok o' /\ wrel (fresh n) o'.
  Proof using Hq Hq25 HS HK.
    induction k as [|k IH]; intros f o H; cbn [for_]; [eauto|].
    destruct (fresh_feed n o [0%N] H) as (o1 & -> & H1); [apply PC.small_span; [repeat constructor|cbn; lia]|]. rewrite bind_ok. now apply IH.
  Qed.

  Lemma construct_rel a : ok_cargs a ->
    exists o, oc_construct (M.cls log2 R sufS sufK P dbg) a = Ok o /\ wrel (created customized clen a) o.
  Proof using Hlog Hq Hq25 HS HK.
    destruct a as [[l n] c]. intros (Hl & Hn & Hc). cbn [M.cls oc_construct]. unfold M.construct, created, customized, clen.
    change (M.is_empty n) with (is_nil n). change (M.is_empty c) with (is_nil c).
    assert (K.construct R l = Ok (K.new R (Z.to_nat l))) as ->.
    { unfold K.construct. destruct (Z.ltb_spec l 0); [lia|reflexivity]. }
    destruct (is_nil n && is_nil c); cbn [negb]; rewrite bind_ok.
    - eexists. split; [reflexivity|]. split; [reflexivity|]. cbn [M.m_shake M.m_keccak w_parts w_custom]. split; [apply new_ok|exact I].
    - change (mkOwner true _) with (fresh (Z.to_nat l)).
      assert (wrel (fresh (Z.to_nat l)) (M.mkObj true None (Some (K.new R (Z.to_nat l))))) as H0.
      { split; [reflexivity|]. split; [exact I|]. apply new_ok. }
      assert (N.of_nat R <= 2 ^ 56 - 2 ^ 8)%N as HP. { unfold R. change (2 ^ 56 - 2 ^ 8)%N with 72057594037927680%N. lia. }
      unfold P. rewrite (leftEncode_ok log2 dbg Hlog _ HP), bind_ok, canon_span, canon_size.
      pose proof (left_encode_length _ (max_2040 _ HP)) as LL. pose proof (left_encode_bytes _ (max_2040 _ HP)) as LB.
      destruct (fresh_feed _ _ (left_encode (N.of_nat R)) H0) as (o1 & -> & H1); [apply PC.small_span; [exact LB|lia]|]. rewrite bind_ok.
      match goal with |- context[M.processString _ _ _ _ _ n o1 ?z] => destruct (process_rel _ o1 n z H1 Hn) as (o2 & z2 & -> & H2) end.
      rewrite bind_ok. destruct (process_rel _ o2 c z2 H2 Hc) as (o3 & z3 & -> & H3). rewrite bind_ok. now apply zeros_rel.
  Qed.

  Theorem cshake_owns : Owns (M.cls log2 R sufS sufK P dbg) customized clen ok_cargs span_ok wrel.
  Proof using Hlog Hq Hq25 HS HK.
    constructor; cbn [M.cls Args OObj oc_feed oc_finalize oc_reset oc_vector oc_copy oc_move oc_assign oc_massign].
    - exact construct_rel.
    - exact feed_rel.
    - exact fin_rel.
    - exact reset_rel.
    - exact vec_rel.
    - exact copy_rel.
    - intros w x H. apply swap_rel; [apply nothing_rel|exact H].
    - exact assign_rel.
    - exact swap_rel.
  Qed.

  (** ** tuple_hash.h *)
  Definition twrel (w : owner) (o : T.Obj) : Prop := wrel w (T.m_cshake o) /\ (0 <= T.m_digestLength o < 2 ^ 28)%Z.

  Lemma changed_in_use w p : in_use (changed w p) = Some p.
  Proof using. unfold in_use, changed. cbn [w_custom w_parts]. unfold with_part. now rewrite eqb_reflx. Qed.

  Lemma changed_rel w p p' o : wrel (changed (changed w p) p') o -> wrel (changed w p') o.
  Proof using.
    intros (H1 & H2 & H3). split; [exact H1|]. cbn [changed w_parts w_custom] in *. unfold with_part in *.
    destruct (w_custom w); cbn [eqb] in *; auto.
  Qed.

  Lemma impl_rel w o d : twrel w o -> span_ok d ->
    match in_use w with
    | Some p => exists o', T.addDataImpl R sufS sufK dbg d o = Ok o' /\ twrel (changed w (mkPart (p_len p) (p_done p))) o'
    | None => T.addDataImpl R sufS sufK dbg d o = Ub NullDeref
    end.
  Proof using Hq Hq25 HS HK.
    intros [H Hl] Hd. pose proof (feed_rel w _ d H Hd) as Hf. unfold T.addDataImpl. destruct (in_use w) as [p|]; [|now rewrite Hf].
    destruct Hf as (o' & -> & Ho). rewrite bind_ok. eexists. split; [reflexivity|]. split; [exact Ho|exact Hl].
  Qed.

  Theorem tuple_owns : Owns (T.cls log2 R sufS sufK P dbg) always tlen ok_targs short twrel.
  Proof using Hlog Hq Hq25 HS HK.
    constructor; cbn [T.cls Args OObj oc_construct oc_feed oc_finalize oc_reset oc_vector oc_copy oc_move oc_assign oc_massign].
    - intros [l c] [Hl Hc]. unfold T.construct.
      destruct (construct_rel (l, T.name, c)) as (o & E & Ho).
      { split; [lia|]. split; [|exact Hc]. split; [repeat constructor|]. unfold bit_length. apply N.leb_le. reflexivity. }
      cbn [M.cls oc_construct] in E. rewrite E, bind_ok. eexists. split; [reflexivity|]. split; [exact Ho|exact Hl].
    - intros w x d H Hs. unfold T.nextData. pose proof (PC.short_len d Hs) as Hsl. pose proof (proj2 Hs) as Hb.
      assert (umul 64 (N.of_nat (length d)) 8 = bit_length d) as ->.
      { unfold umul. rewrite trunc_id; [unfold bit_length; lia|]. unfold bnd. change (2 ^ 53)%N with 9007199254740992%N in Hsl.
        change (2 ^ 64)%N with 18446744073709551616%N. lia. }
      rewrite (leftEncode_ok log2 dbg Hlog _ Hb), bind_ok, canon_span.
      pose proof (left_encode_length _ (max_2040 _ Hb)) as LL. pose proof (left_encode_bytes _ (max_2040 _ Hb)) as LB.
      pose proof (impl_rel w x (left_encode (bit_length d)) H) as Hf. destruct (in_use w) as [p|].
      + destruct Hf as (o1 & -> & H1); [apply PC.small_span; [exact LB|lia]|]. rewrite bind_ok.
        pose proof (impl_rel _ o1 d H1 (PC.short_span d Hs)) as H2. rewrite changed_in_use in H2. destruct H2 as (o2 & E2 & H2 & L2).
        eexists. split; [exact E2|]. split; [|exact L2]. exact (changed_rel _ _ _ _ H2).
      + rewrite Hf; [reflexivity|apply PC.small_span; [exact LB|lia]].
    - intros w x H. unfold T.finalize. destruct (digest_bits (T.m_digestLength x) (proj2 H)) as (E1 & E2 & Hv).
      rewrite E1, bind_ok.  rewrite E2. set (v := (8 * N.of_nat (Z.to_nat (T.m_digestLength x)))%N) in *.
      rewrite (rightEncode_ok log2 dbg Hlog _ Hv), bind_ok, canon_span.
      assert (length (right_encode v) <= 256) as LL.
      { destruct (byte_count_spec v (max_2040 _ Hv)) as (B & _). unfold right_encode. rewrite app_length, be_bytes_length. cbn [length]. lia. }
      pose proof (right_encode_bytes _ (max_2040 _ Hv)) as LB.
      pose proof (impl_rel w x (right_encode v) H) as Hf. destruct (in_use w) as [p|].
      + destruct Hf as (o1 & -> & H1 & L1); [apply PC.small_span; [exact LB|lia]|]. rewrite bind_ok.
        pose proof (fin_rel _ _ H1) as H2. rewrite changed_in_use in H2. destruct H2 as (o2 & -> & H2). rewrite bind_ok.
        eexists. split; [reflexivity|]. split; [|exact L1]. exact (changed_rel _ _ _ _ H2).
      + rewrite Hf; [reflexivity|apply PC.small_span; [exact LB|lia]].
    - intros w x [H Hl]. unfold T.reset. pose proof (reset_rel w _ H) as Hf. destruct (in_use w) as [p|]; [|now rewrite Hf].
      destruct Hf as (o' & -> & Ho). rewrite bind_ok. eexists. split; [reflexivity|]. split; [exact Ho|exact Hl].
    - intros w x [H Hl]. exact (vec_rel w _ H).
    - intros w x [H Hl]. unfold T.copy_construct. pose proof (copy_rel w _ H) as Hf. destruct (in_use w) as [p|]; [|now rewrite Hf].
      destruct Hf as (o' & -> & Ho). rewrite bind_ok. eexists. split; [reflexivity|]. split; [exact Ho|exact Hl].
    - intros w x [H Hl]. unfold T.move_construct, M.move_construct. pose proof (swap_rel _ _ _ _ nothing_rel H) as [H1 H2].
      destruct (M.swap_selected _ _) as [c1 c2]. split; (split; [assumption|exact Hl]).
    - intros w v x y [H Hl] [G Gl]. unfold T.copy_assign. pose proof (assign_rel _ _ _ _ H G) as Ha.
      destruct (w_parts w (w_custom v)); [destruct (in_use v)|]; try (now rewrite Ha).
      destruct Ha as (z & -> & Hz). rewrite bind_ok. eexists. split; [reflexivity|]. split; [exact Hz|exact Gl].
    - intros w v x y [H Hl] [G Gl]. unfold T.move_assign, M.move_assign. pose proof (swap_rel _ _ _ _ H G) as [H1 H2].
      destruct (M.swap_selected _ _) as [c1 c2]. split; (split; [assumption|exact Gl]).
  Qed.
End CShakeOwns.

(** ** the four classes *)
Section Instances.
  Variables (lg : N -> N) (dbg : bool).
  Hypothesis Hlg : log2_accurate lg.
  Lemma owns128 : Owns (M.cls128 lg dbg) customized clen ok_cargs span_ok (wrel 21).
  Proof. exact (cshake_owns lg dbg Hlg 21 0x1F 0x04 ltac:(lia) ltac:(lia) eq_refl eq_refl). Qed.
  Lemma owns256 : Owns (M.cls256 lg dbg) customized clen ok_cargs span_ok (wrel 17).
  Proof. exact (cshake_owns lg dbg Hlg 17 0x1F 0x04 ltac:(lia) ltac:(lia) eq_refl eq_refl). Qed.
  Lemma towns128 : Owns (T.cls128 lg dbg) always tlen ok_targs short (twrel 21).
  Proof. exact (tuple_owns lg dbg Hlg 21 0x1F 0x04 ltac:(lia) ltac:(lia) eq_refl eq_refl). Qed.
  Lemma towns256 : Owns (T.cls256 lg dbg) always tlen ok_targs short (twrel 17).
  Proof. exact (tuple_owns lg dbg Hlg 17 0x1F 0x04 ltac:(lia) ltac:(lia) eq_refl eq_refl). Qed.
End Instances.

Theorem careful_runs {C custom len ok_args ok_item rel} : Owns C custom len ok_args ok_item rel -> forall p,
  Forall (in_order ok_args ok_item) p -> careful custom len p (fun _ => NotYet) -> exists x, oexec C p (fun _ => None) = Ok x.
Proof.
  intros HO p Hp Hc. pose proof (exact_all HO p Hp) as H. destruct (careful_goes p _ Hc (fun _ => None)) as (t & E); [intros k; exact I|].
  now rewrite E in H.
Qed.

(** ** a moved-from object with content *)
Section Return.
  Variables (log2 : N -> N) (dbg : bool).
  Hypothesis Hlog : log2_accurate log2.
  Variables (R : nat) (sufS sufK P : N).
  Hypothesis HR0 : 0 < R.
  Hypothesis HR : R <= 200.
  Hypothesis HP : P = N.of_nat R.
  Variables (hashS hashK : nat -> list N -> list N).
  Variables (absS doneS absK doneK : nat -> list N -> Buffer * K.St).
  Hypothesis IS : forall d, Implements (K.cls R sufS dbg d) (hashS d) (fun _ => True) (absS d) (doneS d).
  Hypothesis IK : forall d, Implements (K.cls R sufK dbg d) (hashK d) (fun _ => True) (absK d) (doneK d).

  Theorem returns l a m : (0 <= l)%Z -> ok_cargs a -> customized a = true -> span_ok m ->
    exists st, oexec (M.cls log2 R sufS sufK P dbg)
      [Construct 0 (l, [], []); Feed 0 m; Construct 1 a; MoveAssign 0 1; MoveConstruct 2 0; Fin 0; Vec 0] (fun _ => None) =
      Ok ([OBytes (hashS (Z.to_nat l) m)], st).
  Proof.
    intros Hl Ha Hcu Hm. destruct a as [[l' n] c].
    destruct (PC.construct_full log2 dbg Hlog R sufS sufK P HR0 HR HP _ _ absS doneS absK doneK IS IK l [] []) as (o1 & E1 & R1 & _).
    { split; [exact Hl|]. split; (split; [constructor|]); unfold bit_length; apply N.leb_le; reflexivity. }
    destruct (PC.construct_full log2 dbg Hlog R sufS sufK P HR0 HR HP _ _ absS doneS absK doneK IS IK l' n c Ha) as (o2 & E2 & R2 & _).
    destruct (PC.add_ok dbg R sufS sufK P HR0 HR HP _ _ absS doneS absK doneK IS IK _ _ m o1 R1 Hm) as (o3 & E3 & R3). cbn [app] in R3.
    destruct o3 as [f3 s3 k3]. pose proof R3 as (A1 & A2 & A3 & A4). cbn [is_nil andb M.m_customized M.m_shake customized negb] in A3, A4. subst f3 s3.
    destruct (PC.fin_ok dbg R sufS sufK P HR0 HR HP _ _ absS doneS absK doneK IS IK (l, [], []) m
      (M.mkObj false (Some (absS (Z.to_nat l) m)) None)) as (o5 & E5 & R5).
    { split; [exact A1|]. split; [exact A2|]. split; reflexivity. }
    destruct (PC.vec_ok dbg R sufS sufK P HR0 HR HP _ _ absS doneS absK doneK IS IK _ _ _ R5) as [E6 _].
    destruct o2 as [f2 s2 k2]. pose proof R2 as (_ & _ & B3 & _). cbn [M.m_customized] in B3. rewrite Hcu in B3. subst f2.
    eexists.
    cbn [oexec exec_ocmd M.cls oc_construct]. rewrite E1, !bind_ok. cbn [fst snd].
    unfold update at 1, sget at 1, sput at 1. cbn [Nat.eqb]. rewrite bind_ok. cbn [M.cls oc_feed]. rewrite E3, !bind_ok. cbn [fst snd].
    rewrite E2, !bind_ok. cbn [fst snd].
    unfold sget at 1, sput at 1 2. cbn [Nat.eqb]. rewrite bind_ok. unfold sget at 1, sput at 1. cbn [Nat.eqb]. rewrite bind_ok.
    cbn [M.cls oc_massign M.move_assign M.swap_selected M.m_customized M.m_shake M.m_keccak negb]. rewrite bind_ok. cbn [fst snd].
    unfold sget at 1, sput at 1. cbn [Nat.eqb]. rewrite bind_ok.
    cbn [M.cls oc_move M.move_construct M.swap_selected M.m_customized M.m_shake M.m_keccak negb]. rewrite bind_ok. cbn [fst snd].
    unfold update at 1, sget at 1, sput at 1 2. cbn [Nat.eqb]. rewrite bind_ok. cbn [M.cls oc_finalize]. rewrite E5, !bind_ok. cbn [fst snd].
    unfold observe, sget at 1, sput at 1. cbn [Nat.eqb]. rewrite bind_ok. cbn [M.cls oc_vector]. rewrite E6, !bind_ok. cbn [fst snd].
    reflexivity.
  Qed.
End Return.

Theorem returns128 lg dbg l a m : log2_accurate lg -> (0 <= l)%Z -> ok_cargs a -> customized a = true -> span_ok m ->
  exists st, oexec (M.cls128 lg dbg)
    [Construct 0 (l, [], []); Feed 0 m; Construct 1 a; MoveAssign 0 1; MoveConstruct 2 0; Fin 0; Vec 0] (fun _ => None) =
    Ok ([OBytes (Spec.Keccak.shake128 (Z.to_nat l) m)], st).
Proof.
  intros Hlg. destruct (PC.uniformS128 dbg) as (aS & dS & IS). destruct (PC.uniformK128 dbg) as (aK & dK & IK).
  exact (returns lg dbg Hlg (1344 / 8) 0x1F 0x04 (1344 / 8) ltac:(PC.inst) ltac:(PC.inst) ltac:(PC.inst) _ _ aS dS aK dK IS IK l a m).
Qed.
Theorem returns256 lg dbg l a m : log2_accurate lg -> (0 <= l)%Z -> ok_cargs a -> customized a = true -> span_ok m ->
  exists st, oexec (M.cls256 lg dbg)
    [Construct 0 (l, [], []); Feed 0 m; Construct 1 a; MoveAssign 0 1; MoveConstruct 2 0; Fin 0; Vec 0] (fun _ => None) =
    Ok ([OBytes (Spec.Keccak.shake256 (Z.to_nat l) m)], st).
Proof.
  intros Hlg. destruct (PC.uniformS256 dbg) as (aS & dS & IS). destruct (PC.uniformK256 dbg) as (aK & dK & IK).
  exact (returns lg dbg Hlg (1088 / 8) 0x1F 0x04 (1088 / 8) ltac:(PC.inst) ltac:(PC.inst) ltac:(PC.inst) _ _ aS dS aK dK IS IK l a m).
Qed.

(** ** as stated in Props *)
Theorem cshake_exact lg dbg p : log2_accurate lg -> Forall (in_order ok_cargs span_ok) p ->
  let says (r : res (list obs * (nat -> option M.Obj))) := match fate_of customized clen p (fun _ => None) with
    | Goes _ => exists x, r = Ok x | NullPointer => r = Ub NullDeref | TextOfNothing => r = Ub EmptyFront | NoSuchObject => r = Ub UninitRead end in
  says (oexec (M.cls128 lg dbg) p (fun _ => None)) /\ says (oexec (M.cls256 lg dbg) p (fun _ => None)).
Proof.
  intros Hl Hp. exact (conj (exact_all (owns128 lg dbg Hl) p Hp) (exact_all (owns256 lg dbg Hl) p Hp)).
Qed.

Theorem tuple_exact lg dbg p : log2_accurate lg -> Forall (in_order ok_targs short) p ->
  let says (r : res (list obs * (nat -> option T.Obj))) := match fate_of always tlen p (fun _ => None) with
    | Goes _ => exists x, r = Ok x | NullPointer => r = Ub NullDeref | TextOfNothing => r = Ub EmptyFront | NoSuchObject => r = Ub UninitRead end in
  says (oexec (T.cls128 lg dbg) p (fun _ => None)) /\ says (oexec (T.cls256 lg dbg) p (fun _ => None)).
Proof.
  intros Hl Hp. exact (conj (exact_all (towns128 lg dbg Hl) p Hp) (exact_all (towns256 lg dbg Hl) p Hp)).
Qed.

Theorem cshake_careful lg dbg p : log2_accurate lg -> Forall (in_order ok_cargs span_ok) p -> careful customized clen p (fun _ => NotYet) ->
  (exists x, oexec (M.cls128 lg dbg) p (fun _ => None) = Ok x) /\ (exists x, oexec (M.cls256 lg dbg) p (fun _ => None) = Ok x).
Proof.
  intros Hl Hp Hc. exact (conj (careful_runs (owns128 lg dbg Hl) p Hp Hc) (careful_runs (owns256 lg dbg Hl) p Hp Hc)).
Qed.

Theorem tuple_careful lg dbg p : log2_accurate lg -> Forall (in_order ok_targs short) p -> careful always tlen p (fun _ => NotYet) ->
  (exists x, oexec (T.cls128 lg dbg) p (fun _ => None) = Ok x) /\ (exists x, oexec (T.cls256 lg dbg) p (fun _ => None) = Ok x).
Proof.
  intros Hl Hp Hc. exact (conj (careful_runs (towns128 lg dbg Hl) p Hp Hc) (careful_runs (towns256 lg dbg Hl) p Hp Hc)).
Qed.

Theorem returns_both lg dbg l a m : log2_accurate lg -> (0 <= l)%Z -> ok_cargs a -> customized a = true -> span_ok m ->
  let p := [Construct 0 (l, [], []); Feed 0 m; Construct 1 a; MoveAssign 0 1; MoveConstruct 2 0; Fin 0; Vec 0] in
  (exists st, oexec (M.cls128 lg dbg) p (fun _ => None) = Ok ([OBytes (Spec.Keccak.shake128 (Z.to_nat l) m)], st)) /\
  (exists st, oexec (M.cls256 lg dbg) p (fun _ => None) = Ok ([OBytes (Spec.Keccak.shake256 (Z.to_nat l) m)], st)).
Proof. intros H1 H2 H3 H4 H5. split; [now apply returns128|now apply returns256]. Qed.
