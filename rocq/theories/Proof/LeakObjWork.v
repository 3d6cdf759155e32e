(** How much work programs on cSHAKE and TupleHash objects do. *)
From Coq Require Import List NArith ZArith Arith Bool Lia.
From Verif.Base Require Import CWord.
From Verif.Base Require Res.
From Verif.Base Require Import Leak.
From Verif.Spec Require Import Client ObjClient ObjShape.
From Verif.Model Require Import Buffer Api ObjApi LeakLibrary LeakObjects.
From Verif.Model Require Keccak CShake TupleHash.
From Verif.Model.Leak Require Import LkBuffer LkStream.
From Verif.Model.Leak Require LkKeccak LkCShake LkTupleHash.
From Verif.Proof Require Words.
From Verif.Proof Require Import LeakWork LeakLinear.
Import ListNotations.
Local Open Scope nat_scope.

Lemma lim_encode_loop dbg v n : forall b, lim (n * 6 + 1) (LkCShake.encodeLoop dbg n v b).
Proof.
  induction n as [|n IH]; intros b; cbn [LkCShake.encodeLoop]; [apply lim_tell, lim_ok|].
  replace (S n * 6 + 1) with (S (5 + (n * 6 + 1))) by lia. apply lim_tell. destruct (_ <=? _)%N; [apply lim_ub|]. apply lim_bind; [apply (lim_fill dbg _ 1)|exact IH].
Qed.
Lemma post_encode_loop dbg v n c : forall b, cap c b -> post (cap c) (LkCShake.encodeLoop dbg n v b).
Proof.
  induction n as [|n IH]; intros b H; cbn [LkCShake.encodeLoop]; apply post_tell; [apply post_ok, H|]. destruct (_ <=? _)%N; [apply post_ub|].
  apply (post_bind (cap c)); [apply post_fill, H|exact IH].
Qed.
Lemma count_le log2 v : N.to_nat (LkCShake.encodeCount log2 v) <= 255.
Proof.
  unfold LkCShake.encodeCount. destruct (v =? 0)%N; [lia|]. cbv zeta. rewrite Words.trunc_mod. match goal with |- N.to_nat (?x mod 2 ^ 8) <= _ => generalize x end. intros x.
  pose proof (N.mod_upper_bound x (2 ^ 8)%N ltac:(discriminate)) as H. change (2 ^ 8)%N with 256%N in *. lia.
Qed.
Lemma lim_of_list dbg c l : lim (2 * length l + 3) (buf_of_list dbg c l).
Proof. unfold buf_of_list. cbv zeta. eapply lim_weak; [eapply lim_bind; [apply lim_check|intros; eapply (lim_fold 1); intros; apply lim_put]|lia]. Qed.
Lemma post_of_list dbg c l : post (cap c) (buf_of_list dbg c l).
Proof. unfold buf_of_list. cbv zeta. apply post_any. intros. apply post_fold; [intros; now apply post_put|apply cap_new]. Qed.
Lemma lim_left log2 dbg v : lim 1600 (LkCShake.leftEncode log2 dbg v).
Proof.
  unfold LkCShake.leftEncode. cbv zeta. pose proof (count_le log2 v) as H. set (n := LkCShake.encodeCount log2 v) in *. clearbody n.
  eapply lim_weak; [eapply lim_bind; [apply lim_of_list|intros; apply lim_encode_loop]|]. cbn [length]. lia.
Qed.
Lemma post_left log2 dbg v : post (cap 8) (LkCShake.leftEncode log2 dbg v).
Proof. unfold LkCShake.leftEncode. cbv zeta. apply (post_bind (cap 8)); [apply post_of_list|]. intros. now apply post_encode_loop. Qed.
Lemma lim_right log2 dbg v : lim 1600 (LkTupleHash.rightEncode log2 dbg v).
Proof.
  unfold LkTupleHash.rightEncode. cbv zeta. pose proof (count_le log2 v) as H. change (CShake.encodeCount log2 v) with (LkCShake.encodeCount log2 v). set (n := LkCShake.encodeCount log2 v) in *. clearbody n.
  eapply lim_weak; [eapply lim_bind; [apply lim_encode_loop|intros; apply (lim_fill dbg _ 1)]|]. lia.
Qed.
Lemma post_right log2 dbg v : post (cap 8) (LkTupleHash.rightEncode log2 dbg v).
Proof. unfold LkTupleHash.rightEncode. cbv zeta. apply (post_bind (cap 8)); [apply post_encode_loop, cap_new|]. intros. now apply post_fill. Qed.

(** a Keccak object with a digest of at most D bytes *)
Section Keccak.
  Variables (R : nat) (suf : N) (dbg : bool) (k D : nat).
  Hypothesis HL : forall d, linear (Keccak.cls R suf dbg d) (keccak R suf dbg) k d.
  Definition kinv (x : Buffer * Keccak.St) : Prop := exists d (J : Buffer * Keccak.St -> Prop), d <= D /\ J x /\
    (forall x, J x -> J (Keccak.reset x)) /\
    (forall e x, J x -> lim (k * S (length e)) (LkKeccak.addData R dbg e x) /\ post J (LkKeccak.addData R dbg e x)) /\
    (forall x, J x -> lim (k * S d) (LkKeccak.finalize R suf dbg x) /\ post J (LkKeccak.finalize R suf dbg x)) /\
    (forall x, J x -> lim (k * S d) (LkKeccak.toVector x) /\ post (fun r => length r <= d) (LkKeccak.toVector x)).
  Lemma kinv_new d : d <= D -> kinv (Keccak.new R d).
  Proof using HL. intros Hd. destruct (HL d) as (J & H1 & H2 & H3 & H4 & H5). exists d, J. split; [exact Hd|]. split; [exact H1|]. split; [exact H2|]. split; [exact H3|]. split; [exact H4|exact H5]. Qed.
  Lemma kinv_add e x : kinv x -> lim (k * S (length e)) (LkKeccak.addData R dbg e x) /\ post kinv (LkKeccak.addData R dbg e x).
  Proof using Type.
    intros (d & J & Hd & Hx & H2 & H3 & H4 & H5). destruct (H3 e x Hx) as [A1 A2]. split; [exact A1|]. intros y E. exists d, J. split; [exact Hd|]. split; [exact (A2 y E)|]. auto.
  Qed.
  Lemma kinv_reset x : kinv x -> kinv (Keccak.reset x).
  Proof using Type. intros (d & J & Hd & Hx & H2 & H3 & H4 & H5). exists d, J. split; [exact Hd|]. split; [apply H2, Hx|]. auto. Qed.
  Lemma kinv_fin x : kinv x -> lim (k * S D) (LkKeccak.finalize R suf dbg x) /\ post kinv (LkKeccak.finalize R suf dbg x).
  Proof using Type.
    intros (d & J & Hd & Hx & H2 & H3 & H4 & H5). destruct (H4 x Hx) as [A1 A2]. split; [eapply lim_weak; [exact A1|apply Nat.mul_le_mono_l; lia]|].
    intros y E. exists d, J. split; [exact Hd|]. split; [exact (A2 y E)|]. auto.
  Qed.
  Lemma kinv_vector x : kinv x -> lim 0 (LkKeccak.toVector x) /\ post (fun r => length r <= D) (LkKeccak.toVector x).
  Proof using Type. intros (d & J & Hd & Hx & H2 & H3 & H4 & H5). split; [apply lim_ok|]. intros r E. destruct (H5 x Hx) as [_ A]. specialize (A r E). cbn beta in A. eapply Nat.le_trans; [exact A|exact Hd]. Qed.
End Keccak.

(** what the class must offer: k per call, byte and argument byte; k per byte of the longest digest *)
Definition olinear (C : ObjClass) (L : OLeaky (Args C) (OObj C)) (size digest : Args C -> nat) (k D : nat) (J : OObj C -> Prop) : Prop :=
  (forall a, digest a <= D -> lim (k * S (size a)) (ol_construct L a) /\ post J (ol_construct L a)) /\
  (forall e x, J x -> lim (k * S (length e)) (ol_feed L e x) /\ post J (ol_feed L e x)) /\
  (forall x, J x -> lim (k * S D) (ol_finalize L x) /\ post J (ol_finalize L x)) /\
  (forall x, J x -> lim k (ol_reset L x) /\ post J (ol_reset L x)) /\
  (forall x, J x -> lim k (ol_vector L x) /\ post (fun r => length r <= D) (ol_vector L x)) /\
  (forall x, J x -> lim k (ol_copy L x) /\ post J (ol_copy L x)) /\
  (forall x, J x -> lim k (ol_move L x) /\ post (fun p => J (fst p) /\ J (snd p)) (ol_move L x)) /\
  (forall x y, J x -> J y -> lim k (ol_assign L x y) /\ post J (ol_assign L x y)) /\
  (forall x y, J x -> J y -> lim k (ol_massign L x y) /\ post (fun p => J (fst p) /\ J (snd p)) (ol_massign L x y)).

Section Classes.
  Variables (log2 : N -> N) (R : nat) (sufS sufK P : N) (dbg : bool) (k D : nat).
  Hypothesis HS : forall d, linear (Keccak.cls R sufS dbg d) (keccak R sufS dbg) k d.
  Hypothesis HK : forall d, linear (Keccak.cls R sufK dbg d) (keccak R sufK dbg) k d.

  Definition pinv (suf : N) (p : option (Buffer * Keccak.St)) : Prop := match p with Some x => kinv R suf dbg k D x | None => True end.
  Definition cinv (o : CShake.Obj) : Prop := pinv sufS (CShake.m_shake o) /\ pinv sufK (CShake.m_keccak o).
  Lemma lim_deref {A} (p : option A) : lim 0 (LkCShake.deref p). Proof. destruct p; [apply lim_ok|apply lim_ub]. Qed.
  Lemma post_deref suf p : pinv suf p -> post (kinv R suf dbg k D) (LkCShake.deref p).
  Proof. destruct p; intros H; [apply post_ok, H|apply post_ub]. Qed.
  Lemma selected n f o : (forall suf x, kinv R suf dbg k D x -> lim n (f suf x) /\ post (kinv R suf dbg k D) (f suf x)) -> cinv o ->
    lim (S n) (LkCShake.on_selected sufS sufK f o) /\ post cinv (LkCShake.on_selected sufS sufK f o).
  Proof using Type.
    intros H [I1 I2]. unfold LkCShake.on_selected. split.
    - apply lim_tell. destruct (negb _).
      + apply (lim_post (kinv R sufS dbg k D) 0); [apply lim_deref|apply post_deref, I1|]. intros x Hx. rewrite <- (Nat.add_0_r n). apply lim_bind; [apply H, Hx|intros; apply lim_ok].
      + apply (lim_post (kinv R sufK dbg k D) 0); [apply lim_deref|apply post_deref, I2|]. intros x Hx. rewrite <- (Nat.add_0_r n). apply lim_bind; [apply H, Hx|intros; apply lim_ok].
    - apply post_tell. destruct (negb _).
      + apply (post_bind (kinv R sufS dbg k D)); [apply post_deref, I1|]. intros x Hx. apply (post_bind (kinv R sufS dbg k D)); [apply H, Hx|]. intros y Hy. apply post_ok. split; [exact Hy|exact I2].
      + apply (post_bind (kinv R sufK dbg k D)); [apply post_deref, I2|]. intros x Hx. apply (post_bind (kinv R sufK dbg k D)); [apply H, Hx|]. intros y Hy. apply post_ok. split; [exact I1|exact Hy].
  Qed.
  Lemma cs_add e o : cinv o -> lim (S (k * S (length e))) (LkCShake.addData R sufS sufK dbg e o) /\ post cinv (LkCShake.addData R sufS sufK dbg e o).
  Proof using Type. apply selected. intros. now apply kinv_add. Qed.
  Lemma cs_fin o : cinv o -> lim (S (k * S D)) (LkCShake.finalize R sufS sufK dbg o) /\ post cinv (LkCShake.finalize R sufS sufK dbg o).
  Proof using Type. apply selected. intros. now apply kinv_fin. Qed.
  Lemma cs_reset o : cinv o -> lim 1 (LkCShake.reset sufS sufK o) /\ post cinv (LkCShake.reset sufS sufK o).
  Proof using Type. apply (selected 0). intros. split; [apply lim_ok|apply post_ok]. now apply kinv_reset. Qed.
  Lemma cs_vector o : cinv o -> lim 1 (LkCShake.toVector o) /\ post (fun r => length r <= D) (LkCShake.toVector o).
  Proof using Type.
    intros [I1 I2]. unfold LkCShake.toVector. split.
    - apply lim_tell. destruct (negb _); apply (lim_bind 0); try apply lim_deref; intros; apply lim_ok.
    - apply post_tell. destruct (negb _).
      + apply (post_bind (kinv R sufS dbg k D)); [apply post_deref, I1|]. intros x Hx. apply (kinv_vector R sufS dbg k D x Hx).
      + apply (post_bind (kinv R sufK dbg k D)); [apply post_deref, I2|]. intros x Hx. apply (kinv_vector R sufK dbg k D x Hx).
  Qed.
  Definition enc : nat := 1600 + S (k * 9).
  Lemma cs_encoded b o : cap 8 b -> cinv o -> lim (S (k * 9)) (LkCShake.addData R sufS sufK dbg (buf_span b) o).
  Proof using Type. intros H Ho. eapply lim_weak; [apply cs_add, Ho|]. pose proof (cap_span 8 b H) as E. apply le_n_S, Nat.mul_le_mono_l. clear - E. lia. Qed.
  Lemma cs_string s o n : cinv o -> lim (enc + S (k * S (length s))) (LkCShake.processString log2 R sufS sufK dbg s o n) /\
    post (fun p => cinv (fst p)) (LkCShake.processString log2 R sufS sufK dbg s o n).
  Proof using Type.
    intros Ho. unfold LkCShake.processString, enc. split.
    - replace (1600 + S (k * 9) + S (k * S (length s))) with (1600 + (S (k * 9) + (S (k * S (length s)) + 0))) by lia.
      apply (lim_post (cap 8)); [apply lim_left|apply post_left|]. intros b Hb. apply (lim_post cinv); [apply cs_encoded; assumption|apply cs_add, Ho|]. intros o1 H1. cbv zeta.
      apply lim_bind; [apply cs_add, H1|]. intros. apply lim_ok.
    - apply post_any. intros b. apply (post_bind cinv); [apply cs_add, Ho|]. intros o1 H1. cbv zeta. apply (post_bind cinv); [apply cs_add, H1|]. intros o2 H2. apply post_ok. exact H2.
  Qed.
  Lemma kc_construct suf l : (forall d, linear (Keccak.cls R suf dbg d) (keccak R suf dbg) k d) -> Z.to_nat l <= D -> lim 1 (LkKeccak.construct R l) /\ post (kinv R suf dbg k D) (LkKeccak.construct R l).
  Proof using Type.
    intros HL Hl. unfold LkKeccak.construct. split; [eapply lim_weak; [apply lim_if; [apply (lim_throw 0)|apply lim_ok]|lia]|]. apply post_tell. destruct (_ <? _)%Z; [apply post_throw|]. apply post_ok.
    now apply (kinv_new R suf dbg k D HL).
  Qed.
  Definition cs_k : nat := 3 * enc + N.to_nat P * (k * 2 + 2) + 2 * k + 10.
  Hypothesis HP : P <> 0%N.
  Lemma pad_le l : N.to_nat (LkCShake.bytepadCount l P) <= N.to_nat P.
  Proof using HP. unfold LkCShake.bytepadCount. pose proof (N.mod_upper_bound (P - l mod P) P HP). lia. Qed.
  Lemma cs_pad m : forall i o, cinv o -> lim (m * (S (k * 2) + 1) + 1) (for_ i m (fun _ o => LkCShake.addData R sufS sufK dbg [0%N] o) o).
  Proof using Type.
    induction m as [|m IH]; intros i o Ho; cbn [for_]; [apply lim_tell, lim_ok|]. replace (S m * (S (k * 2) + 1) + 1) with (S (S (k * 2) + (m * (S (k * 2) + 1) + 1))) by (clear; lia). apply lim_tell.
    apply (lim_post cinv); [apply (cs_add [0%N]), Ho|apply cs_add, Ho|]. intros o' Ho'. apply IH, Ho'.
  Qed.
  Lemma cs_construct l n c : Z.to_nat l <= D -> lim (cs_k * S (length n + length c)) (LkCShake.construct log2 R sufS sufK P dbg l n c) /\ post cinv (LkCShake.construct log2 R sufS sufK P dbg l n c).
  Proof using All.
    intros Hl. unfold LkCShake.construct. cbv zeta. destruct (kc_construct sufS l HS Hl) as [S1 S2]. destruct (kc_construct sufK l HK Hl) as [K1 K2]. split.
    - apply (lim_weak (S (2 + (1 + (1600 + (S (k * 9) + ((enc + S (k * S (length n))) + ((enc + S (k * S (length c))) + (N.to_nat P * (S (k * 2) + 1) + 1))))))))); [|unfold cs_k, enc; nia].
      apply lim_tell. destruct (negb (negb _)).
      + eapply lim_weak; [eapply lim_bind; [exact S1|intros; apply lim_ok]|lia].
      + eapply lim_weak; [|apply (Nat.add_le_mono_r 0 2), Nat.le_0_l]. rewrite Nat.add_0_l.
        apply (lim_post (kinv R sufK dbg k D)); [exact K1|exact K2|]. intros x Hx. apply (lim_post (cap 8)); [apply lim_left|apply post_left|]. intros b Hb.
        assert (Ho : cinv (CShake.mkObj (negb (LkCShake.is_empty n && LkCShake.is_empty c)) None (Some x))) by (split; [exact I|exact Hx]).
        apply (lim_post cinv); [apply cs_encoded; assumption|apply cs_add, Ho|]. intros o1 H1. apply (lim_post (fun p => cinv (fst p))); [apply cs_string, H1|apply cs_string, H1|]. intros [o2 n2] H2. cbn [fst] in H2.
        apply (lim_post (fun p => cinv (fst p))); [apply cs_string, H2|apply cs_string, H2|]. intros [o3 n3] H3. cbn [fst] in H3.
        pose proof (pad_le n3) as Hp. revert Hp. generalize (N.to_nat (LkCShake.bytepadCount n3 P)) as m. intros m Hp.
        apply (lim_weak (m * (S (k * 2) + 1) + 1)); [|clear - Hp; nia]. now apply cs_pad.
    - apply post_tell. destruct (negb (negb _)).
      + apply (post_bind (kinv R sufS dbg k D)); [exact S2|]. intros x Hx. apply post_ok. split; [exact Hx|exact I].
      + apply (post_bind (kinv R sufK dbg k D)); [exact K2|]. intros x Hx. apply post_any. intros b. apply (post_bind cinv); [apply cs_add; split; [exact I|exact Hx]|]. intros o1 H1.
        apply (post_bind (fun p => cinv (fst p))); [apply cs_string, H1|]. intros [o2 n2] H2. cbn [fst] in H2. apply (post_bind (fun p => cinv (fst p))); [apply cs_string, H2|]. intros [o3 n3] H3. cbn [fst] in H3.
        apply post_for; [|exact H3]. intros i o Ho. apply cs_add, Ho.
  Qed.
  Lemma cs_copy o : cinv o -> lim 1 (LkCShake.copy_construct o) /\ post cinv (LkCShake.copy_construct o).
  Proof using Type.
    intros [I1 I2]. unfold LkCShake.copy_construct. split.
    - apply lim_tell. destruct (negb _); apply (lim_bind 0); try apply lim_deref; intros; apply lim_ok.
    - apply post_tell. destruct (negb _).
      + apply (post_bind (kinv R sufS dbg k D)); [apply post_deref, I1|]. intros x Hx. apply post_ok. split; [exact Hx|exact I].
      + apply (post_bind (kinv R sufK dbg k D)); [apply post_deref, I2|]. intros x Hx. apply post_ok. split; [exact I|exact Hx].
  Qed.
  Lemma cs_assign o q : cinv o -> cinv q -> lim 1 (LkCShake.copy_assign o q) /\ post cinv (LkCShake.copy_assign o q).
  Proof using Type.
    intros [I1 I2] [J1 J2]. unfold LkCShake.copy_assign. cbv zeta. split.
    - apply lim_tell. destruct (negb _); apply (lim_bind 0); try apply lim_deref; intros; apply (lim_bind 0); try apply lim_deref; intros; apply lim_ok.
    - apply post_tell. destruct (negb _); apply post_any; intros _.
      + apply (post_bind (kinv R sufS dbg k D)); [apply post_deref, J1|]. intros x Hx. apply post_ok. split; [exact Hx|exact I2].
      + apply (post_bind (kinv R sufK dbg k D)); [apply post_deref, J2|]. intros x Hx. apply post_ok. split; [exact I1|exact Hx].
  Qed.
  Lemma cs_swap o q : cinv o -> cinv q -> lim 1 (LkCShake.swap_selected o q) /\ post (fun p => cinv (fst p) /\ cinv (snd p)) (LkCShake.swap_selected o q).
  Proof using Type.
    intros [I1 I2] [J1 J2]. unfold LkCShake.swap_selected. cbv zeta. split; [apply lim_tell; destruct (negb _); apply lim_ok|]. apply post_tell.
    assert (H : cinv (fst (CShake.swap_selected o q)) /\ cinv (snd (CShake.swap_selected o q))) by (unfold CShake.swap_selected; cbv zeta; destruct (negb _); cbn [fst snd]; split; split; assumption).
    destruct (negb _); apply post_ok, H.
  Qed.

  Theorem cshake_linear : olinear (CShake.cls log2 R sufS sufK P dbg) (cshake log2 R sufS sufK P dbg) cshake_size cshake_digest cs_k D cinv.
  Proof using All.
    assert (Hk : S k <= cs_k) by (unfold cs_k; lia).
    unfold olinear, CShake.cls, cshake. cbn [Args OObj ol_construct ol_feed ol_finalize ol_reset ol_vector ol_copy ol_move ol_assign ol_massign].
    split; [intros [[l n] c] Hl; now apply cs_construct|].
    split; [intros e x Hx; split; [eapply lim_weak; [apply cs_add, Hx|clear - Hk; nia]|apply cs_add, Hx]|].
    split; [intros x Hx; split; [eapply lim_weak; [apply cs_fin, Hx|clear - Hk; nia]|apply cs_fin, Hx]|].
    split; [intros x Hx; split; [eapply lim_weak; [apply cs_reset, Hx|clear - Hk; lia]|apply cs_reset, Hx]|].
    split; [intros x Hx; split; [eapply lim_weak; [apply cs_vector, Hx|clear - Hk; lia]|apply cs_vector, Hx]|].
    split; [intros x Hx; split; [eapply lim_weak; [apply cs_copy, Hx|clear - Hk; lia]|apply cs_copy, Hx]|].
    assert (E : cinv (CShake.mkObj false None None)) by (split; exact I).
    split; [intros x Hx; split; [eapply lim_weak; [apply (cs_swap _ _ E Hx)|clear - Hk; lia]|apply (cs_swap _ _ E Hx)]|].
    split; [intros x y Hx Hy; split; [eapply lim_weak; [apply (cs_assign _ _ Hx Hy)|clear - Hk; lia]|apply (cs_assign _ _ Hx Hy)]|].
    intros x y Hx Hy; split; [eapply lim_weak; [apply (cs_swap _ _ Hx Hy)|clear - Hk; lia]|apply (cs_swap _ _ Hx Hy)].
  Qed.

  Definition tinv (o : TupleHash.Obj) : Prop := cinv (TupleHash.m_cshake o).
  Lemma th_add e o : tinv o -> lim (S (k * S (length e))) (LkTupleHash.addDataImpl R sufS sufK dbg e o) /\ post tinv (LkTupleHash.addDataImpl R sufS sufK dbg e o).
  Proof using Type.
    intros H. unfold LkTupleHash.addDataImpl. split; [rewrite <- (Nat.add_0_r (S _)); apply lim_bind; [apply cs_add, H|intros; apply lim_ok]|]. apply (post_bind cinv); [apply cs_add, H|]. intros c Hc. apply post_ok. exact Hc.
  Qed.
  Lemma th_encoded b o : cap 8 b -> tinv o -> lim (S (k * 9)) (LkTupleHash.addDataImpl R sufS sufK dbg (buf_span b) o).
  Proof using Type. intros H Ho. eapply lim_weak; [apply th_add, Ho|]. pose proof (cap_span 8 b H) as E. apply le_n_S, Nat.mul_le_mono_l. clear - E. lia. Qed.
  Definition th_k : nat := cs_k * 10.
  Theorem tuple_linear : olinear (TupleHash.cls log2 R sufS sufK P dbg) (tuple_hash log2 R sufS sufK P dbg) tuple_size tuple_digest th_k D tinv.
  Proof using All.
    assert (Hk : enc + 2 * k + 10 <= cs_k) by (unfold cs_k; lia). unfold enc in Hk. unfold th_k.
    unfold olinear, TupleHash.cls, tuple_hash. cbn [Args OObj ol_construct ol_feed ol_finalize ol_reset ol_vector ol_copy ol_move ol_assign ol_massign].
    split. { intros [l c] Hl. destruct (cs_construct l TupleHash.name c Hl) as [A1 A2]. unfold LkTupleHash.construct. split.
      - eapply lim_weak; [eapply lim_bind; [exact A1|intros; apply lim_ok]|]. change (length TupleHash.name) with 9. unfold tuple_size. cbn [snd]. nia.
      - apply (post_bind cinv); [exact A2|]. intros o Ho. apply post_ok. exact Ho. }
    split. { intros e x Hx. unfold LkTupleHash.nextData. split.
      - apply (lim_weak (1600 + (S (k * 9) + S (k * S (length e))))); [|clear - Hk; nia]. apply (lim_post (cap 8)); [apply lim_left|apply post_left|]. intros b Hb.
        apply (lim_post tinv); [now apply th_encoded|apply th_add, Hx|]. intros o Ho. apply th_add, Ho.
      - apply post_any. intros b. apply (post_bind tinv); [apply th_add, Hx|]. intros o Ho. apply th_add, Ho. }
    split. { intros x Hx. unfold LkTupleHash.finalize. split.
      - apply (lim_weak (1 + (1600 + (S (k * 9) + (S (k * S D) + 0))))); [|clear - Hk; nia].
        apply lim_bind; [unfold LkTupleHash.imul; cbv zeta; eapply lim_weak; [apply lim_if; [apply lim_ok|apply (lim_ub 0)]|lia]|]. intros z.
        apply (lim_post (cap 8)); [apply lim_right|apply post_right|]. intros b Hb. apply (lim_post tinv); [now apply th_encoded|apply th_add, Hx|]. intros o Ho.
        apply lim_bind; [apply cs_fin, Ho|intros; apply lim_ok].
      - apply post_any. intros z. apply post_any. intros b. apply (post_bind tinv); [apply th_add, Hx|]. intros o Ho. apply (post_bind cinv); [apply cs_fin, Ho|]. intros c Hc. apply post_ok. exact Hc. }
    assert (E : cinv (CShake.mkObj false None None)) by (split; exact I).
    split; [intros x Hx; split; [eapply lim_weak; [eapply lim_bind; [apply cs_reset, Hx|intros; apply lim_ok]|clear - Hk; lia]|apply (post_bind cinv); [apply cs_reset, Hx|intros c Hc; apply post_ok, Hc]]|].
    split; [intros x Hx; split; [eapply lim_weak; [apply cs_vector, Hx|clear - Hk; lia]|apply cs_vector, Hx]|].
    split; [intros x Hx; split; [eapply lim_weak; [eapply lim_bind; [apply cs_copy, Hx|intros; apply lim_ok]|clear - Hk; lia]|apply (post_bind cinv); [apply cs_copy, Hx|intros c Hc; apply post_ok, Hc]]|].
    split; [intros x Hx; split; [eapply lim_weak; [eapply lim_bind; [apply (cs_swap _ _ E Hx)|intros [? ?]; apply lim_ok]|clear - Hk; lia]|eapply post_bind; [apply (cs_swap _ _ E Hx)|intros [u v] [Hu Hv]; apply post_ok; split; assumption]]|].
    split; [intros x y Hx Hy; split; [eapply lim_weak; [eapply lim_bind; [apply (cs_assign _ _ Hx Hy)|intros; apply lim_ok]|clear - Hk; lia]|apply (post_bind cinv); [apply (cs_assign _ _ Hx Hy)|intros c Hc; apply post_ok, Hc]]|].
    intros x y Hx Hy; split; [eapply lim_weak; [eapply lim_bind; [apply (cs_swap _ _ Hx Hy)|intros [? ?]; apply lim_ok]|clear - Hk; lia]|eapply post_bind; [apply (cs_swap _ _ Hx Hy)|intros [u v] [Hu Hv]; apply post_ok; split; assumption]].
  Qed.
End Classes.

Section Run.
  Variables (C : ObjClass) (L : OLeaky (Args C) (OObj C)) (size digest : Args C -> nat) (k D : nat) (J : OObj C -> Prop).
  Hypothesis H : olinear C L size digest k D J.
  Definition sinv (s : ostore C) : Prop := forall i x, s i = Some x -> J x.
  Lemma sinv_put s i x : sinv s -> J x -> sinv (sput C s i x).
  Proof using Type. intros S K j y E. unfold sput in E. destruct (j =? i); [injection E as <-; exact K|exact (S j y E)]. Qed.
  Lemma lim_oget s i : lim 0 (oget C s i). Proof using Type. unfold oget. destruct (s i); [apply lim_ok|apply lim_ub]. Qed.
  Lemma post_oget s i : sinv s -> post J (oget C s i).
  Proof using Type. intros S. unfold oget. destruct (s i) eqn:E; [apply post_ok, (S i), E|apply post_ub]. Qed.
  Definition ocost (c : ocmd (Args C)) : nat := match c with Construct _ a => k * S (size a) | Feed _ e => k * S (length e) | _ => (k + 4) * S D end.
  Lemma ocmd_lim c s : match c with Construct _ a => digest a <= D | _ => True end -> sinv s ->
    lim (ocost c) (run_ocmd C L c s) /\ post (fun r => sinv (fst r)) (run_ocmd C L c s).
  Proof using H.
    destruct H as (F1 & F2 & F3 & F4 & F5 & F6 & F7 & F8 & F9). intros Hd S.
    assert (U : forall i f n m, n <= m -> (forall x, J x -> lim n (f x) /\ post J (f x)) -> lim m (oupdate C s i f) /\ post (fun r => sinv (fst r)) (oupdate C s i f)).
    { intros i f n m Hm K. unfold oupdate. split.
      - eapply lim_weak; [|exact Hm]. apply (lim_post J 0); [apply lim_oget|apply post_oget, S|]. intros x Hx. rewrite <- (Nat.add_0_r n). apply lim_bind; [apply K, Hx|intros; apply lim_ok].
      - apply (post_bind J); [apply post_oget, S|]. intros x Hx. apply (post_bind J); [apply K, Hx|]. intros y Hy. apply post_ok. now apply sinv_put. }
    assert (V : forall i (f : list N -> res obs), (forall r, length r <= D -> lim (3 * D + 2) (f r)) -> lim ((k + 4) * Datatypes.S D) (oobserve C L s i f) /\ post (fun r => sinv (fst r)) (oobserve C L s i f)).
    { intros i f K. unfold oobserve. split.
      - apply (lim_weak (0 + (k + ((3 * D + 2) + 0)))); [|clear; nia]. apply (lim_post J); [apply lim_oget|apply post_oget, S|]. intros x Hx. destruct (F5 x Hx) as [V1 V2].
        apply (lim_post (fun r => length r <= D)); [exact V1|exact V2|]. intros r Hr. apply lim_bind; [apply K, Hr|intros; apply lim_ok].
      - do 3 (apply post_any; intros). apply post_ok. exact S. }
    destruct c as [i a|i d|i|i|i|i|i n|i|i j|i j|i j|i j]; cbn [run_ocmd ocost].
    - destruct (F1 a Hd) as [A1 A2]. split; [rewrite <- (Nat.add_0_r (k * _)); apply lim_bind; [exact A1|intros; apply lim_ok]|]. apply (post_bind J); [exact A2|]. intros x Hx. apply post_ok. now apply sinv_put.
    - apply (U _ _ _ _ (le_n _)). intros. now apply F2.
    - apply (U i _ (k * Datatypes.S D)); [clear; nia|]. exact F3.
    - apply (U i _ k); [clear; nia|]. exact F4.
    - apply V. intros. eapply lim_weak; [apply lim_ok|lia].
    - apply V. intros r Hr. eapply lim_weak; [eapply lim_bind; [apply lim_string|intros; apply lim_ok]|lia].
    - apply V. intros r Hr. eapply lim_weak; [eapply lim_bind; [apply lim_uint|intros; apply lim_ok]|lia].
    - apply V. intros r Hr. unfold std_hash. eapply lim_weak; [eapply lim_bind; [apply lim_uint|intros; apply lim_ok]|lia].
    - split.
      + apply (lim_weak (0 + (k + 0))); [|clear; nia]. apply (lim_post J); [apply lim_oget|apply post_oget, S|]. intros x Hx. apply lim_bind; [apply F6, Hx|intros; apply lim_ok].
      + apply (post_bind J); [apply post_oget, S|]. intros x Hx. apply (post_bind J); [apply F6, Hx|]. intros y Hy. apply post_ok. now apply sinv_put.
    - split.
      + apply (lim_weak (0 + (k + 0))); [|clear; nia]. apply (lim_post J); [apply lim_oget|apply post_oget, S|]. intros x Hx. apply lim_bind; [apply F7, Hx|intros [? ?]; apply lim_ok].
      + apply (post_bind J); [apply post_oget, S|]. intros x Hx. eapply post_bind; [apply F7, Hx|]. intros [u v] [Hu Hv]. apply post_ok. apply sinv_put; [now apply sinv_put|assumption].
    - split.
      + apply (lim_weak (0 + (0 + Datatypes.S (0 + (k + 0))))); [|clear; nia]. apply (lim_post J); [apply lim_oget|apply post_oget, S|]. intros x Hx. apply (lim_post J); [apply lim_oget|apply post_oget, S|]. intros y Hy.
        apply lim_if; [apply lim_ok|]. apply lim_bind; [now apply F8|intros; apply lim_ok].
      + apply (post_bind J); [apply post_oget, S|]. intros x Hx. apply (post_bind J); [apply post_oget, S|]. intros y Hy. apply post_tell. destruct (_ =? _); [apply post_ok; exact S|].
        apply (post_bind J); [now apply F8|]. intros u Hu. apply post_ok. now apply sinv_put.
    - split.
      + apply (lim_weak (0 + (0 + Datatypes.S (0 + (k + 0))))); [|clear; nia]. apply (lim_post J); [apply lim_oget|apply post_oget, S|]. intros x Hx. apply (lim_post J); [apply lim_oget|apply post_oget, S|]. intros y Hy.
        apply lim_if; [apply lim_ok|]. apply lim_bind; [now apply F9|intros [? ?]; apply lim_ok].
      + apply (post_bind J); [apply post_oget, S|]. intros x Hx. apply (post_bind J); [apply post_oget, S|]. intros y Hy. apply post_tell. destruct (_ =? _); [apply post_ok; exact S|].
        eapply post_bind; [now apply F9|]. intros [u v] [Hu Hv]. apply post_ok. apply sinv_put; [now apply sinv_put|assumption].
  Qed.
  Lemma orun_lim p : longest digest p <= D -> forall s, sinv s -> lim ((k + 4) * S D * oprogram_size size p) (orun C L p s) /\ post (fun r => sinv (snd r)) (orun C L p s).
  Proof using H.
    induction p as [|c p IH]; intros Hd s Hs; cbn [orun]; [split; [eapply lim_weak; [apply lim_ok|lia]|apply post_ok, Hs]|].
    change (Nat.max (match c with Construct _ a => digest a | _ => 0 end) (longest digest p) <= D) in Hd.
    assert (Hd1 : match c with Construct _ a => digest a <= D | _ => True end) by (destruct c; try exact I; clear - Hd; lia).
    assert (Hd2 : longest digest p <= D) by (clear - Hd; lia).
    destruct (ocmd_lim c s Hd1 Hs) as [K1 K2]. specialize (IH Hd2). split.
    - change (oprogram_size size (c :: p)) with (ocmd_size size c + oprogram_size size p). rewrite Nat.mul_add_distr_l. apply (lim_post (fun r => sinv (fst r))); [|exact K2|].
      + eapply lim_weak; [exact K1|]. clear. destruct c; cbn [ocost ocmd_size]; nia.
      + intros r Hr. rewrite <- (Nat.add_0_r (_ * oprogram_size size p)). apply lim_bind; [apply IH, Hr|intros; apply lim_ok].
    - apply (post_bind (fun r => sinv (fst r))); [exact K2|]. intros r Hr. apply (post_bind (fun t => sinv (snd t))); [apply IH, Hr|]. intros t Ht. apply post_ok. exact Ht.
  Qed.
End Run.

(** one constant for both rates and all four classes *)
Lemma rates : exists k, forall dbg d, linear (Keccak.cls (1344 / 8) 0x1F dbg d) (keccak (1344 / 8) 0x1F dbg) k d /\ linear (Keccak.cls (1344 / 8) 0x04 dbg d) (keccak (1344 / 8) 0x04 dbg) k d /\
  linear (Keccak.cls (1088 / 8) 0x1F dbg d) (keccak (1088 / 8) 0x1F dbg) k d /\ linear (Keccak.cls (1088 / 8) 0x04 dbg d) (keccak (1088 / 8) 0x04 dbg) k d.
Proof.
  destruct (keccak_linear (1344 / 8) 0x1F ltac:(discriminate)) as [k1 K1]. destruct (keccak_linear (1344 / 8) 0x04 ltac:(discriminate)) as [k2 K2].
  destruct (keccak_linear (1088 / 8) 0x1F ltac:(discriminate)) as [k3 K3]. destruct (keccak_linear (1088 / 8) 0x04 ltac:(discriminate)) as [k4 K4].
  exists (k1 + k2 + k3 + k4). intros dbg d. split; [|split; [|split]].
  - apply (linear_weak _ _ k1); [lia|apply K1].
  - apply (linear_weak _ _ k2); [lia|apply K2].
  - apply (linear_weak _ _ k3); [lia|apply K3].
  - apply (linear_weak _ _ k4); [lia|apply K4].
Qed.

Section Bound.
  Variables (log2 : N -> N) (R : nat) (sufS sufK P : N) (dbg : bool) (k : nat).
  Hypothesis HS : forall d, linear (Keccak.cls R sufS dbg d) (keccak R sufS dbg) k d.
  Hypothesis HK : forall d, linear (Keccak.cls R sufK dbg d) (keccak R sufK dbg) k d.
  Hypothesis HP : P <> 0%N.
  Definition bound_k : nat := th_k P k + 4.
  Lemma cs_le : cs_k P k <= th_k P k. Proof using Type. unfold th_k. clear. lia. Qed.
  Lemma c_bound p : lim (bound_k * S (longest cshake_digest p) * oprogram_size cshake_size p) (orun (CShake.cls log2 R sufS sufK P dbg) (cshake log2 R sufS sufK P dbg) p (fun _ => None)).
  Proof using All.
    eapply lim_weak; [apply (orun_lim _ _ _ _ _ _ _ (cshake_linear log2 R sufS sufK P dbg k (longest cshake_digest p) HS HK HP)); [apply le_n|intros i x E; discriminate E]|].
    pose proof cs_le as E. unfold bound_k. apply Nat.mul_le_mono_r, Nat.mul_le_mono_r. clear - E. lia.
  Qed.
  Lemma t_bound p : lim (bound_k * S (longest tuple_digest p) * oprogram_size tuple_size p) (orun (TupleHash.cls log2 R sufS sufK P dbg) (tuple_hash log2 R sufS sufK P dbg) p (fun _ => None)).
  Proof using All.
    exact (proj1 (orun_lim _ _ _ _ _ _ _ (tuple_linear log2 R sufS sufK P dbg k (longest tuple_digest p) HS HK HP) p (le_n _) (fun _ => None) (fun i x E => match E with end))) ||
    (eapply lim_weak; [apply (orun_lim _ _ _ _ _ _ _ (tuple_linear log2 R sufS sufK P dbg k (longest tuple_digest p) HS HK HP)); [apply le_n|intros i x E; discriminate E]|apply le_n]).
  Qed.
  (** a call on the objects that a program has left behind *)
  Lemma c_call p os st c : outcome (orun (CShake.cls log2 R sufS sufK P dbg) (cshake log2 R sufS sufK P dbg) p (fun _ => None)) = Res.Ok (os, st) ->
    lim (bound_k * S (longest cshake_digest (c :: p)) * ocmd_size cshake_size c) (run_ocmd (CShake.cls log2 R sufS sufK P dbg) (cshake log2 R sufS sufK P dbg) c st).
  Proof using All.
    intros E. set (D := longest cshake_digest (c :: p)).
    assert (HD : Nat.max (match c with Construct _ a => cshake_digest a | _ => 0 end) (longest cshake_digest p) = D) by reflexivity. clearbody D.
    assert (HDc : match c with Construct _ a => cshake_digest a | _ => 0 end <= D) by (clear - HD; lia). assert (HDp : longest cshake_digest p <= D) by (clear - HD; lia).
    pose proof (cshake_linear log2 R sufS sufK P dbg k D HS HK HP) as HL.
    assert (Hs : sinv (CShake.cls log2 R sufS sufK P dbg) (cinv R sufS sufK dbg k D) st).
    { refine (proj2 (orun_lim _ _ _ _ _ _ _ HL p _ (fun _ => None) _) (os, st) E); [exact HDp|intros i x Q; discriminate Q]. }
    eapply lim_weak; [apply (ocmd_lim _ _ _ _ _ _ _ HL); [destruct c; try exact I; exact HDc|exact Hs]|].
    pose proof cs_le as Hle. unfold bound_k. clear - Hle. destruct c; cbn [ocost ocmd_size]; nia.
  Qed.
  Lemma t_call p os st c : outcome (orun (TupleHash.cls log2 R sufS sufK P dbg) (tuple_hash log2 R sufS sufK P dbg) p (fun _ => None)) = Res.Ok (os, st) ->
    lim (bound_k * S (longest tuple_digest (c :: p)) * ocmd_size tuple_size c) (run_ocmd (TupleHash.cls log2 R sufS sufK P dbg) (tuple_hash log2 R sufS sufK P dbg) c st).
  Proof using All.
    intros E. set (D := longest tuple_digest (c :: p)).
    assert (HD : Nat.max (match c with Construct _ a => tuple_digest a | _ => 0 end) (longest tuple_digest p) = D) by reflexivity. clearbody D.
    assert (HDc : match c with Construct _ a => tuple_digest a | _ => 0 end <= D) by (clear - HD; lia). assert (HDp : longest tuple_digest p <= D) by (clear - HD; lia).
    pose proof (tuple_linear log2 R sufS sufK P dbg k D HS HK HP) as HL.
    assert (Hs : sinv (TupleHash.cls log2 R sufS sufK P dbg) (tinv R sufS sufK dbg k D) st).
    { refine (proj2 (orun_lim _ _ _ _ _ _ _ HL p _ (fun _ => None) _) (os, st) E); [exact HDp|intros i x Q; discriminate Q]. }
    eapply lim_weak; [apply (ocmd_lim _ _ _ _ _ _ _ HL); [destruct c; try exact I; exact HDc|exact Hs]|].
    unfold bound_k. clear. destruct c; cbn [ocost ocmd_size]; nia.
  Qed.
End Bound.

Lemma bound_mono P k q a b : bound_k P k <= q -> forall A (x : res A), lim (bound_k P k * a * b) x -> lim (q * a * b) x.
Proof. intros H A x L. eapply lim_weak; [exact L|]. apply Nat.mul_le_mono_r, Nat.mul_le_mono_r, H. Qed.
Theorem objects_linear : exists k, forall (log2 : N -> N) (dbg : bool),
  (forall p, length (trace (seen_c128 log2 dbg p)) <= k * S (longest cshake_digest p) * oprogram_size cshake_size p) /\
  (forall p, length (trace (seen_c256 log2 dbg p)) <= k * S (longest cshake_digest p) * oprogram_size cshake_size p) /\
  (forall p, length (trace (seen_t128 log2 dbg p)) <= k * S (longest tuple_digest p) * oprogram_size tuple_size p) /\
  (forall p, length (trace (seen_t256 log2 dbg p)) <= k * S (longest tuple_digest p) * oprogram_size tuple_size p).
Proof.
  destruct rates as [k K]. 
  assert (L1 := Nat.le_add_r (bound_k (1344 / 8) k) (bound_k (1088 / 8) k)). assert (L2 := Nat.le_add_r (bound_k (1088 / 8) k) (bound_k (1344 / 8) k)). rewrite (Nat.add_comm (bound_k (1088 / 8) k)) in L2.
  exists (bound_k (1344 / 8) k + bound_k (1088 / 8) k). revert L1 L2. generalize (bound_k (1344 / 8) k + bound_k (1088 / 8) k). intros q L1 L2 log2 dbg.
  assert (S1 : forall d, linear (Keccak.cls (1344 / 8) 0x1F dbg d) (keccak (1344 / 8) 0x1F dbg) k d) by exact (fun d => proj1 (K dbg d)). assert (K1 : forall d, linear (Keccak.cls (1344 / 8) 0x04 dbg d) (keccak (1344 / 8) 0x04 dbg) k d) by exact (fun d => proj1 (proj2 (K dbg d))).
  assert (S2 : forall d, linear (Keccak.cls (1088 / 8) 0x1F dbg d) (keccak (1088 / 8) 0x1F dbg) k d) by exact (fun d => proj1 (proj2 (proj2 (K dbg d)))). assert (K2 : forall d, linear (Keccak.cls (1088 / 8) 0x04 dbg d) (keccak (1088 / 8) 0x04 dbg) k d) by exact (fun d => proj2 (proj2 (proj2 (K dbg d)))).
  assert (P1 : (1344 / 8)%N <> 0%N) by discriminate. assert (P2 : (1088 / 8)%N <> 0%N) by discriminate.
  split; [|split; [|split]]; intros p.
  - exact (bound_mono (1344 / 8) k q _ _ L1 _ _ (c_bound log2 (1344 / 8) 0x1F 0x04 (1344 / 8) dbg k S1 K1 P1 p)).
  - exact (bound_mono (1088 / 8) k q _ _ L2 _ _ (c_bound log2 (1088 / 8) 0x1F 0x04 (1088 / 8) dbg k S2 K2 P2 p)).
  - exact (bound_mono (1344 / 8) k q _ _ L1 _ _ (t_bound log2 (1344 / 8) 0x1F 0x04 (1344 / 8) dbg k S1 K1 P1 p)).
  - exact (bound_mono (1088 / 8) k q _ _ L2 _ _ (t_bound log2 (1088 / 8) 0x1F 0x04 (1088 / 8) dbg k S2 K2 P2 p)).
Qed.
Theorem object_calls : exists k, forall (log2 : N -> N) (dbg : bool),
  (forall p os st c, outcome (seen_c128 log2 dbg p) = Res.Ok (os, st) ->
     length (trace (run_ocmd (CShake.cls128 log2 dbg) (cshake128 log2 dbg) c st)) <= k * S (longest cshake_digest (c :: p)) * ocmd_size cshake_size c) /\
  (forall p os st c, outcome (seen_c256 log2 dbg p) = Res.Ok (os, st) ->
     length (trace (run_ocmd (CShake.cls256 log2 dbg) (cshake256 log2 dbg) c st)) <= k * S (longest cshake_digest (c :: p)) * ocmd_size cshake_size c) /\
  (forall p os st c, outcome (seen_t128 log2 dbg p) = Res.Ok (os, st) ->
     length (trace (run_ocmd (TupleHash.cls128 log2 dbg) (tuple128 log2 dbg) c st)) <= k * S (longest tuple_digest (c :: p)) * ocmd_size tuple_size c) /\
  (forall p os st c, outcome (seen_t256 log2 dbg p) = Res.Ok (os, st) ->
     length (trace (run_ocmd (TupleHash.cls256 log2 dbg) (tuple256 log2 dbg) c st)) <= k * S (longest tuple_digest (c :: p)) * ocmd_size tuple_size c).
Proof.
  destruct rates as [k K]. 
  assert (L1 := Nat.le_add_r (bound_k (1344 / 8) k) (bound_k (1088 / 8) k)). assert (L2 := Nat.le_add_r (bound_k (1088 / 8) k) (bound_k (1344 / 8) k)). rewrite (Nat.add_comm (bound_k (1088 / 8) k)) in L2.
  exists (bound_k (1344 / 8) k + bound_k (1088 / 8) k). revert L1 L2. generalize (bound_k (1344 / 8) k + bound_k (1088 / 8) k). intros q L1 L2 log2 dbg.
  assert (S1 : forall d, linear (Keccak.cls (1344 / 8) 0x1F dbg d) (keccak (1344 / 8) 0x1F dbg) k d) by exact (fun d => proj1 (K dbg d)). assert (K1 : forall d, linear (Keccak.cls (1344 / 8) 0x04 dbg d) (keccak (1344 / 8) 0x04 dbg) k d) by exact (fun d => proj1 (proj2 (K dbg d))).
  assert (S2 : forall d, linear (Keccak.cls (1088 / 8) 0x1F dbg d) (keccak (1088 / 8) 0x1F dbg) k d) by exact (fun d => proj1 (proj2 (proj2 (K dbg d)))). assert (K2 : forall d, linear (Keccak.cls (1088 / 8) 0x04 dbg d) (keccak (1088 / 8) 0x04 dbg) k d) by exact (fun d => proj2 (proj2 (proj2 (K dbg d)))).
  assert (P1 : (1344 / 8)%N <> 0%N) by discriminate. assert (P2 : (1088 / 8)%N <> 0%N) by discriminate.
  split; [|split; [|split]]; intros p os st c E.
  - exact (bound_mono (1344 / 8) k q _ _ L1 _ _ (c_call log2 (1344 / 8) 0x1F 0x04 (1344 / 8) dbg k S1 K1 P1 p os st c E)).
  - exact (bound_mono (1088 / 8) k q _ _ L2 _ _ (c_call log2 (1088 / 8) 0x1F 0x04 (1088 / 8) dbg k S2 K2 P2 p os st c E)).
  - exact (bound_mono (1344 / 8) k q _ _ L1 _ _ (t_call log2 (1344 / 8) 0x1F 0x04 (1344 / 8) dbg k S1 K1 P1 p os st c E)).
  - exact (bound_mono (1088 / 8) k q _ _ L2 _ _ (t_call log2 (1088 / 8) 0x1F 0x04 (1088 / 8) dbg k S2 K2 P2 p os st c E)).
Qed.
