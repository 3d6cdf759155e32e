(** Two programs on cSHAKE or TupleHash objects with the same shape show the same indices and branches. *)
From Coq Require Import List NArith ZArith Arith Bool.
From Verif.Base Require Res CWord.
From Verif.Base Require Import Leak.
From Verif.Spec Require Import Client ObjClient ObjShape.
From Verif.Model Require Import Buffer Stream Api ObjApi.
From Verif.Model Require Keccak CShake TupleHash.
From Verif.Model.Leak Require Import LkBuffer LkStream.
From Verif.Model.Leak Require LkKeccak LkCShake LkTupleHash.
From Verif.Model Require Import LeakObjects.
From Verif.Proof Require Import Lockstep LeakEqual.
Import ListNotations.

Lemma ct_of_list dbg c d e : sl d e -> ct alike (buf_of_list dbg c d) (buf_of_list dbg c e).
Proof. intros L. unfold buf_of_list. rewrite L. cbv zeta. apply ct_same. intros. apply ct_fold_sl; [intros; now apply ct_put|exact L|apply alike_new]. Qed.
Lemma ct_encode_loop dbg v w k : forall b c, alike b c -> ct alike (LkCShake.encodeLoop dbg k v b) (LkCShake.encodeLoop dbg k w c).
Proof. induction k as [|k IH]; intros b c H; cbn [LkCShake.encodeLoop]; apply ct_tell; [apply ct_ok, H|]. destruct (_ <=? _)%N; [apply ct_ub|]. eapply ct_bind; [apply ct_fill, H|exact IH]. Qed.
Lemma ct_left log2 dbg v : ct alike (LkCShake.leftEncode log2 dbg v) (LkCShake.leftEncode log2 dbg v).
Proof. unfold LkCShake.leftEncode. cbv zeta. eapply ct_bind; [apply ct_of_list; reflexivity|]. intros. now apply ct_encode_loop. Qed.
Lemma ct_right log2 dbg v : ct alike (LkTupleHash.rightEncode log2 dbg v) (LkTupleHash.rightEncode log2 dbg v).
Proof. unfold LkTupleHash.rightEncode. cbv zeta. eapply ct_bind; [apply ct_encode_loop, alike_new|]. intros. now apply ct_fill. Qed.

Definition opt {A B} (R : A -> B -> Prop) (x : option A) (y : option B) : Prop :=
  match x, y with Some a, Some b => R a b | None, None => True | _, _ => False end.
Lemma ct_deref {A B} (R : A -> B -> Prop) p q : opt R p q -> ct R (LkCShake.deref p) (LkCShake.deref q).
Proof. destruct p, q; cbn; intros H; try contradiction; [now apply ct_ok|apply ct_ub]. Qed.

Definition kobj := obj krel.
Definition crel (o q : CShake.Obj) : Prop :=
  CShake.m_customized o = CShake.m_customized q /\ opt kobj (CShake.m_shake o) (CShake.m_shake q) /\ opt kobj (CShake.m_keccak o) (CShake.m_keccak q).
Definition trel (o q : TupleHash.Obj) : Prop := crel (TupleHash.m_cshake o) (TupleHash.m_cshake q) /\ TupleHash.m_digestLength o = TupleHash.m_digestLength q.
Definition two {A B} (R : A -> B -> Prop) (p : A * A) (q : B * B) : Prop := R (fst p) (fst q) /\ R (snd p) (snd q).

Section Classes.
  Variables (log2 : N -> N) (R : nat) (sufS sufK P : N) (dbg : bool).
  Lemma ct_selected f g o q : (forall s x y, kobj x y -> ct kobj (f s x) (g s y)) -> crel o q -> ct crel (LkCShake.on_selected sufS sufK f o) (LkCShake.on_selected sufS sufK g q).
  Proof.
    intros H (E & S & K). unfold LkCShake.on_selected. rewrite E. apply ct_tell. destruct (negb _).
    - eapply ct_bind; [apply ct_deref, S|]. intros x y Hxy. eapply ct_bind; [apply H, Hxy|]. intros u v Huv. apply ct_ok. split; [reflexivity|split; [exact Huv|exact K]].
    - eapply ct_bind; [apply ct_deref, K|]. intros x y Hxy. eapply ct_bind; [apply H, Hxy|]. intros u v Huv. apply ct_ok. split; [reflexivity|split; [exact S|exact Huv]].
  Qed.
  Lemma ct_cs_add d e o q : sl d e -> crel o q -> ct crel (LkCShake.addData R sufS sufK dbg d o) (LkCShake.addData R sufS sufK dbg e q).
  Proof. intros L H. apply ct_selected; [|exact H]. intros. apply ct_add; [|exact L|assumption]. intros. now apply ct_kc_impl. Qed.
  Lemma k_reset x y : kobj x y -> kobj (LkKeccak.reset x) (LkKeccak.reset y).
  Proof. intros [H (_ & _ & K)]. split; [apply alike_cleared, H|]. split; [reflexivity|split; [reflexivity|exact K]]. Qed.
  Lemma ct_cs_reset o q : crel o q -> ct crel (LkCShake.reset sufS sufK o) (LkCShake.reset sufS sufK q).
  Proof. intros H. apply ct_selected; [|exact H]. intros. apply ct_ok. now apply k_reset. Qed.
  Lemma ct_cs_fin o q : crel o q -> ct crel (LkCShake.finalize R sufS sufK dbg o) (LkCShake.finalize R sufS sufK dbg q).
  Proof. intros H. apply ct_selected; [|exact H]. intros. now apply ct_kc_fin. Qed.
  Lemma ct_cs_vector o q : crel o q -> ct sl (LkCShake.toVector o) (LkCShake.toVector q).
  Proof.
    intros (E & S & K). unfold LkCShake.toVector. rewrite E. apply ct_tell.
    destruct (negb _); [eapply ct_bind; [apply ct_deref, S|]|eapply ct_bind; [apply ct_deref, K|]]; intros x y [_ (_ & H & _)]; apply ct_ok, H.
  Qed.
  Definition crel_n (p q : CShake.Obj * N) : Prop := crel (fst p) (fst q) /\ snd p = snd q.
  Lemma ct_cs_string s t o q n : sl s t -> crel o q -> ct crel_n (LkCShake.processString log2 R sufS sufK dbg s o n) (LkCShake.processString log2 R sufS sufK dbg t q n).
  Proof.
    intros L H. unfold LkCShake.processString. rewrite L. eapply ct_bind; [apply ct_left|]. intros b c Hbc. eapply ct_bind; [apply ct_cs_add; [apply sl_span, Hbc|exact H]|]. intros o1 q1 H1. cbv zeta.
    eapply ct_bind; [apply ct_cs_add; [exact L|exact H1]|]. intros o2 q2 H2. apply ct_ok. split; [exact H2|]. cbn [snd]. unfold buf_size. now rewrite (proj1 Hbc).
  Qed.
  Lemma ct_kc_construct l : ct kobj (LkKeccak.construct R l) (LkKeccak.construct R l).
  Proof. unfold LkKeccak.construct. apply ct_tell. destruct (_ <? _)%Z; [apply ct_throw|apply ct_ok]. split; [apply alike_cleared, alike_new|]. split; [reflexivity|split; reflexivity]. Qed.
  Lemma empty_sl s t : sl s t -> LkCShake.is_empty s = LkCShake.is_empty t.
  Proof. destruct s, t; intros H; try discriminate H; reflexivity. Qed.
  Lemma ct_cs_construct l n m c d : sl n m -> sl c d -> ct crel (LkCShake.construct log2 R sufS sufK P dbg l n c) (LkCShake.construct log2 R sufS sufK P dbg l m d).
  Proof.
    intros H K. unfold LkCShake.construct. cbv zeta. rewrite (empty_sl n m H), (empty_sl c d K). apply ct_tell. destruct (negb (negb _)).
    - eapply ct_bind; [apply ct_kc_construct|]. intros x y Hxy. apply ct_ok. split; [reflexivity|split; [exact Hxy|exact I]].
    - eapply ct_bind; [apply ct_kc_construct|]. intros x y Hxy. eapply ct_bind; [apply ct_left|]. intros e f Hef.
      eapply ct_bind; [apply ct_cs_add; [apply sl_span, Hef|split; [reflexivity|split; [exact I|exact Hxy]]]|]. intros o1 q1 H1. unfold buf_size. rewrite (proj1 Hef).
      eapply ct_bind; [apply ct_cs_string; [exact H|exact H1]|]. intros [o2 n2] [q2 m2] [H2 E2]. cbn [fst snd] in H2, E2. subst m2.
      eapply ct_bind; [apply ct_cs_string; [exact K|exact H2]|]. intros [o3 n3] [q3 m3] [H3 E3]. cbn [fst snd] in H3, E3. subst m3.
      apply ct_for; [|exact H3]. intros. apply ct_cs_add; [reflexivity|assumption].
  Qed.
  Lemma ct_cs_copy o q : crel o q -> ct crel (LkCShake.copy_construct o) (LkCShake.copy_construct q).
  Proof.
    intros (E & S & K). unfold LkCShake.copy_construct. rewrite E. apply ct_tell.
    destruct (negb _); [eapply ct_bind; [apply ct_deref, S|]|eapply ct_bind; [apply ct_deref, K|]]; intros x y H; apply ct_ok; split; try reflexivity; split; try exact I; exact H.
  Qed.
  Lemma ct_cs_assign o q o' q' : crel o q -> crel o' q' -> ct crel (LkCShake.copy_assign o o') (LkCShake.copy_assign q q').
  Proof.
    intros (E & S & K) (E' & S' & K'). unfold LkCShake.copy_assign. rewrite E'. cbv zeta. apply ct_tell. destruct (negb _).
    - eapply ct_bind; [apply ct_deref, S|]. intros. eapply ct_bind; [apply ct_deref, S'|]. intros. apply ct_ok. split; [reflexivity|split; assumption].
    - eapply ct_bind; [apply ct_deref, K|]. intros. eapply ct_bind; [apply ct_deref, K'|]. intros. apply ct_ok. split; [reflexivity|split; assumption].
  Qed.
  Lemma ct_cs_swap o q o' q' : crel o q -> crel o' q' -> ct (two crel) (LkCShake.swap_selected o o') (LkCShake.swap_selected q q').
  Proof.
    intros (E & S & K) (E' & S' & K'). unfold LkCShake.swap_selected, CShake.swap_selected. rewrite E, E'. cbv zeta. apply ct_tell.
    destruct (negb _); apply ct_ok; (split; split; [reflexivity|split; assumption|reflexivity|split; assumption]).
  Qed.
  Lemma crel_empty : crel (CShake.mkObj false None None) (CShake.mkObj false None None).
  Proof. split; [reflexivity|split; exact I]. Qed.

  Lemma ct_th_add d e o q : sl d e -> trel o q -> ct trel (LkTupleHash.addDataImpl R sufS sufK dbg d o) (LkTupleHash.addDataImpl R sufS sufK dbg e q).
  Proof. intros L [H E]. unfold LkTupleHash.addDataImpl. eapply ct_bind; [apply ct_cs_add; [exact L|exact H]|]. intros. apply ct_ok. split; assumption. Qed.

  Definition oquiet (C : ObjClass) (L : OLeaky (Args C) (OObj C)) (SA : Args C -> Args C -> Prop) (Q : OObj C -> OObj C -> Prop) : Prop :=
    (forall a b, SA a b -> ct Q (ol_construct L a) (ol_construct L b)) /\ (forall d e x y, sl d e -> Q x y -> ct Q (ol_feed L d x) (ol_feed L e y)) /\
    (forall x y, Q x y -> ct Q (ol_finalize L x) (ol_finalize L y)) /\ (forall x y, Q x y -> ct Q (ol_reset L x) (ol_reset L y)) /\
    (forall x y, Q x y -> ct sl (ol_vector L x) (ol_vector L y)) /\ (forall x y, Q x y -> ct Q (ol_copy L x) (ol_copy L y)) /\
    (forall x y, Q x y -> ct (two Q) (ol_move L x) (ol_move L y)) /\ (forall x y u v, Q x y -> Q u v -> ct Q (ol_assign L x u) (ol_assign L y v)) /\
    (forall x y u v, Q x y -> Q u v -> ct (two Q) (ol_massign L x u) (ol_massign L y v)).
  Theorem cshake_quiet : oquiet (CShake.cls log2 R sufS sufK P dbg) (cshake log2 R sufS sufK P dbg) cshake_args crel.
  Proof.
    unfold oquiet, CShake.cls, cshake. cbn [Args OObj ol_construct ol_feed ol_finalize ol_reset ol_vector ol_copy ol_move ol_assign ol_massign].
    split; [intros [[l n] c] [[k m] d] (H1 & H2 & H3); cbn [fst snd] in *; subst k; now apply ct_cs_construct|]. split; [intros; now apply ct_cs_add|]. split; [exact ct_cs_fin|]. split; [exact ct_cs_reset|].
    split; [exact ct_cs_vector|]. split; [exact ct_cs_copy|]. split; [intros; apply ct_cs_swap; [apply crel_empty|assumption]|]. split; [intros; now apply ct_cs_assign|]. intros. now apply ct_cs_swap.
  Qed.
  Theorem tuple_quiet : oquiet (TupleHash.cls log2 R sufS sufK P dbg) (tuple_hash log2 R sufS sufK P dbg) tuple_args trel.
  Proof.
    unfold oquiet, TupleHash.cls, tuple_hash. cbn [Args OObj ol_construct ol_feed ol_finalize ol_reset ol_vector ol_copy ol_move ol_assign ol_massign].
    split; [intros [l c] [k d] (H1 & H2); cbn [fst snd] in *; subst k; eapply ct_bind; [apply ct_cs_construct; [reflexivity|exact H2]|]; intros; apply ct_ok; split; [assumption|reflexivity]|].
    split; [intros d e x y L H; unfold LkTupleHash.nextData; rewrite L; eapply ct_bind; [apply ct_left|]; intros b c Hbc; eapply ct_bind; [apply ct_th_add; [apply sl_span, Hbc|exact H]|]; intros; now apply ct_th_add|].
    split. { intros x y [H E]. unfold LkTupleHash.finalize. rewrite E. unfold LkTupleHash.imul. cbv zeta. eapply (ct_bind eq); [apply ct_tell; destruct (_ && _)%bool; [now apply ct_ok|apply ct_ub]|]. intros z ? <-.
      eapply ct_bind; [apply ct_right|]. intros b c Hbc. eapply ct_bind; [apply ct_th_add; [apply sl_span, Hbc|split; [exact H|exact E]]|]. intros u v [H1 E1]. eapply ct_bind; [apply ct_cs_fin, H1|]. intros. apply ct_ok. split; assumption. }
    split; [intros x y [H E]; eapply ct_bind; [apply ct_cs_reset, H|]; intros; apply ct_ok; split; assumption|]. split; [intros x y [H E]; now apply ct_cs_vector|].
    split; [intros x y [H E]; eapply ct_bind; [apply ct_cs_copy, H|]; intros; apply ct_ok; split; assumption|].
    split; [intros x y [H E]; eapply ct_bind; [apply ct_cs_swap; [apply crel_empty|exact H]|]; intros [a b] [c d] [K1 K2]; apply ct_ok; split; (split; [assumption|exact E])|].
    split; [intros x y u v [H E] [H' E']; eapply ct_bind; [apply ct_cs_assign; [exact H|exact H']|]; intros; apply ct_ok; split; assumption|].
    intros x y u v [H E] [H' E']; eapply ct_bind; [apply ct_cs_swap; [exact H|exact H']|]; intros [a b] [c d] [K1 K2]; apply ct_ok; split; (split; [assumption|exact E']).
  Qed.
End Classes.

Section Run.
  Variables (C : ObjClass) (L : OLeaky (Args C) (OObj C)) (SA : Args C -> Args C -> Prop) (Q : OObj C -> OObj C -> Prop).
  Hypothesis H : oquiet C L SA Q.
  Definition srel (s t : ostore C) : Prop := forall i, opt Q (s i) (t i).
  Definition srel1 (u v : ostore C * option obs) : Prop := srel (fst u) (fst v).
  Lemma srel_put s t i x y : srel s t -> Q x y -> srel (sput C s i x) (sput C t i y).
  Proof using Type. intros S K j. unfold sput. destruct (j =? i); [exact K|apply S]. Qed.
  Lemma ct_oget s t i : srel s t -> ct Q (oget C s i) (oget C t i).
  Proof using Type. intros S. specialize (S i). unfold oget. destruct (s i), (t i); cbn in S; try contradiction; [now apply ct_ok|apply ct_ub]. Qed.
  Lemma ct_ocmd c d s t : same_ocmd SA c d -> (forall i, c <> Str i) -> srel s t -> ct srel1 (run_ocmd C L c s) (run_ocmd C L d t).
  Proof using H.
    destruct H as (F1 & F2 & F3 & F4 & F5 & F6 & F7 & F8 & F9). intros Hcd T S.
    assert (U : forall i f g, (forall x y, Q x y -> ct Q (f x) (g y)) -> ct srel1 (oupdate C s i f) (oupdate C t i g)).
    { intros i f g K. unfold oupdate. eapply ct_bind; [apply ct_oget, S|]. intros x y Hxy. eapply ct_bind; [apply K, Hxy|]. intros u v Huv. apply ct_ok. now apply srel_put. }
    assert (V : forall i f g, (forall x y, sl x y -> ct any (f x) (g y)) -> ct srel1 (oobserve C L s i f) (oobserve C L t i g)).
    { intros i f g K. unfold oobserve. eapply ct_bind; [apply ct_oget, S|]. intros x y Hxy. eapply ct_bind; [apply F5, Hxy|]. intros u v Huv. eapply ct_bind; [apply K, Huv|]. intros. apply ct_ok. exact S. }
    destruct Hcd as [i a b Hab|i d e Hde|c Hc].
    - cbn [run_ocmd]. eapply ct_bind; [apply F1, Hab|]. intros. apply ct_ok. now apply srel_put.
    - cbn [run_ocmd]. apply U. intros. now apply F2.
    - destruct Hc; cbn [run_ocmd].
      + apply U, F3.
      + apply U, F4.
      + apply V. intros. apply ct_ok. exact I.
      + destruct (T i eq_refl).
      + apply V. intros. eapply ct_bind; [now apply ct_uint|]. intros. apply ct_ok. exact I.
      + apply V. intros. eapply ct_bind; [now apply ct_uint|]. intros. apply ct_ok. exact I.
      + eapply ct_bind; [apply ct_oget, S|]. intros x y Hxy. eapply ct_bind; [apply F6, Hxy|]. intros. apply ct_ok. now apply srel_put.
      + eapply ct_bind; [apply ct_oget, S|]. intros x y Hxy. eapply ct_bind; [apply F7, Hxy|]. intros [a b] [a' b'] [K1 K2]. apply ct_ok. apply srel_put; [now apply srel_put|assumption].
      + eapply ct_bind; [apply ct_oget, S|]. intros x y Hxy. eapply ct_bind; [apply ct_oget, S|]. intros u v Huv. apply ct_tell. destruct (_ =? _); [apply ct_ok; exact S|]. eapply ct_bind; [apply F8; eassumption|]. intros. apply ct_ok. now apply srel_put.
      + eapply ct_bind; [apply ct_oget, S|]. intros x y Hxy. eapply ct_bind; [apply ct_oget, S|]. intros u v Huv. apply ct_tell. destruct (_ =? _); [apply ct_ok; exact S|]. eapply ct_bind; [apply F9; eassumption|]. intros [a b] [a' b'] [K1 K2].
        apply ct_ok. apply srel_put; [now apply srel_put|assumption].
  Qed.
  Theorem ct_orun p q : same_oshape SA p q -> no_otext p -> forall s t, srel s t -> ct any (orun C L p s) (orun C L q t).
  Proof using H.
    intros S. induction S as [|c d p q Hcd S IH]; intros T s t K; cbn [orun]; [apply ct_ok; exact I|].
    eapply (ct_bind srel1); [apply ct_ocmd; [exact Hcd| |exact K]|].
    - intros i ->. apply (T i). now left.
    - intros u v Huv. eapply ct_bind; [apply IH; [intros i Hi; apply (T i); now right|exact Huv]|]. intros. apply ct_ok. exact I.
  Qed.
End Run.
