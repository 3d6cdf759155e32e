(** Without the record of indices and branches, the functions of Model/LeakObjects.v are those of Model/CShake.v,
    Model/TupleHash.v and Model/ObjApi.v. *)
From Coq Require Import List NArith ZArith Arith Bool.
From Verif.Base Require Import Res CWord.
From Verif.Base Require Leak.
From Verif.Spec Require Import Client ObjClient.
From Verif.Model Require Import Buffer Stream Api ObjApi.
From Verif.Model Require Keccak CShake TupleHash.
From Verif.Model.Leak Require LkBuffer LkStream LkKeccak LkCShake LkTupleHash.
From Verif.Model Require Import LeakObjects.
From Verif.Proof Require Import LeakErase.
Import ListNotations.

Lemma er_of_list dbg c l : er (LkBuffer.buf_of_list dbg c l) (buf_of_list dbg c l).
Proof. unfold LkBuffer.buf_of_list, buf_of_list. er. Qed.
Lemma er_encode_loop dbg v k : forall b, er (LkCShake.encodeLoop dbg k v b) (CShake.encodeLoop dbg k v b).
Proof. induction k as [|k IH]; intros b; cbn [LkCShake.encodeLoop CShake.encodeLoop]; apply er_tell; [apply er_ok|]. destruct (_ <=? _)%N; [apply er_ub|]. apply er_bind; [apply er_fill|exact IH]. Qed.
Global Hint Resolve er_of_list er_encode_loop : er.
Lemma er_left log2 dbg v : er (LkCShake.leftEncode log2 dbg v) (CShake.leftEncode log2 dbg v).
Proof. unfold LkCShake.leftEncode, CShake.leftEncode. cbv zeta. apply er_bind; [apply er_of_list|]. intros. apply er_encode_loop. Qed.
Lemma er_right log2 dbg v : er (LkTupleHash.rightEncode log2 dbg v) (TupleHash.rightEncode log2 dbg v).
Proof. unfold LkTupleHash.rightEncode, TupleHash.rightEncode. cbv zeta. apply er_bind; [apply er_encode_loop|]. intros. apply er_fill. Qed.
Lemma er_deref {A} (p : option A) : er (LkCShake.deref p) (CShake.deref p).
Proof. destruct p; reflexivity. Qed.
Global Hint Resolve er_left er_right er_deref : er.

Section Classes.
  Variables (log2 : N -> N) (R : nat) (sufS sufK P : N) (dbg : bool).
  Lemma er_selected f g : (forall s x, er (f s x) (g s x)) -> forall o, er (LkCShake.on_selected sufS sufK f o) (CShake.on_selected sufS sufK g o).
  Proof. intros H o. unfold LkCShake.on_selected, CShake.on_selected. apply er_tell. destruct (negb _); (apply er_bind; [apply er_deref|]; intros; apply er_bind; [apply H|]; intros; apply er_ok). Qed.
  Lemma er_kc_add d o : er (LkKeccak.addData R dbg d o) (Keccak.addData R dbg d o).
  Proof. apply er_add. intros. apply er_kc_impl. Qed.
  Lemma er_cs_add d o : er (LkCShake.addData R sufS sufK dbg d o) (CShake.addData R sufS sufK dbg d o).
  Proof. apply er_selected. intros. apply er_kc_add. Qed.
  Lemma er_cs_reset o : er (LkCShake.reset sufS sufK o) (CShake.reset sufS sufK o).
  Proof. apply er_selected. intros. apply er_ok. Qed.
  Lemma er_cs_fin o : er (LkCShake.finalize R sufS sufK dbg o) (CShake.finalize R sufS sufK dbg o).
  Proof. apply er_selected. intros. apply er_kc_fin. Qed.
  Lemma er_cs_vector o : er (LkCShake.toVector o) (CShake.toVector o).
  Proof. unfold LkCShake.toVector, CShake.toVector. apply er_tell. destruct (negb _); (apply er_bind; [apply er_deref|]; intros; apply er_ok). Qed.
  Hint Resolve er_cs_add er_cs_reset er_cs_fin er_cs_vector : er.
  Lemma er_cs_string s o n : er (LkCShake.processString log2 R sufS sufK dbg s o n) (CShake.processString log2 R sufS sufK dbg s o n).
  Proof. unfold LkCShake.processString, CShake.processString. apply er_bind; [apply er_left|]. intros. apply er_bind; [apply er_cs_add|]. intros. cbv zeta. apply er_bind; [apply er_cs_add|]. intros. apply er_ok. Qed.
  Lemma er_kc_construct l : er (LkKeccak.construct R l) (Keccak.construct R l).
  Proof. unfold LkKeccak.construct, Keccak.construct. apply er_tell. destruct (_ <? _)%Z; [apply er_throw|apply er_ok]. Qed.
  Lemma er_cs_construct l n c : er (LkCShake.construct log2 R sufS sufK P dbg l n c) (CShake.construct log2 R sufS sufK P dbg l n c).
  Proof.
    unfold LkCShake.construct, CShake.construct. cbv zeta. change LkCShake.is_empty with CShake.is_empty. apply er_tell. destruct (negb _).
    - apply er_bind; [apply er_kc_construct|]. intros. apply er_ok.
    - apply er_bind; [apply er_kc_construct|]. intros. apply er_bind; [apply er_left|]. intros. apply er_bind; [apply er_cs_add|]. intros. apply er_bind; [apply er_cs_string|]. intros [o m].
      apply er_bind; [apply er_cs_string|]. intros [o' m']. change LkCShake.bytepadCount with CShake.bytepadCount. apply er_for. intros. apply er_cs_add.
  Qed.
  Lemma er_cs_copy o : er (LkCShake.copy_construct o) (CShake.copy_construct o).
  Proof. unfold LkCShake.copy_construct, CShake.copy_construct. apply er_tell. destruct (negb _); (apply er_bind; [apply er_deref|]; intros; apply er_ok). Qed.
  Lemma er_cs_assign o q : er (LkCShake.copy_assign o q) (CShake.copy_assign o q).
  Proof. unfold LkCShake.copy_assign, CShake.copy_assign. cbv zeta. apply er_tell. destruct (negb _); (apply er_bind; [apply er_deref|]; intros; apply er_bind; [apply er_deref|]; intros; apply er_ok). Qed.
  Lemma er_cs_swap o q : er (LkCShake.swap_selected o q) (Ok (CShake.swap_selected o q)).
  Proof. unfold LkCShake.swap_selected. cbv zeta. apply er_tell. destruct (negb _); apply er_ok. Qed.

  Definition ofaithful (C : ObjClass) (L : OLeaky (Args C) (OObj C)) : Prop :=
    (forall a, er (ol_construct L a) (oc_construct C a)) /\ (forall d x, er (ol_feed L d x) (oc_feed C d x)) /\ (forall x, er (ol_finalize L x) (oc_finalize C x)) /\
    (forall x, er (ol_reset L x) (oc_reset C x)) /\ (forall x, er (ol_vector L x) (oc_vector C x)) /\ (forall x, er (ol_copy L x) (oc_copy C x)) /\
    (forall x, er (ol_move L x) (Ok (oc_move C x))) /\ (forall x y, er (ol_assign L x y) (oc_assign C x y)) /\ (forall x y, er (ol_massign L x y) (Ok (oc_massign C x y))).
  Theorem cshake_faithful : ofaithful (CShake.cls log2 R sufS sufK P dbg) (cshake log2 R sufS sufK P dbg).
  Proof.
    unfold ofaithful, CShake.cls, cshake. cbn [Args OObj oc_construct oc_feed oc_finalize oc_reset oc_vector oc_copy oc_move oc_assign oc_massign ol_construct ol_feed ol_finalize ol_reset ol_vector ol_copy ol_move ol_assign ol_massign].
    split; [intros [[l n] c]; apply er_cs_construct|]. split; [exact er_cs_add|]. split; [exact er_cs_fin|]. split; [exact er_cs_reset|]. split; [exact er_cs_vector|]. split; [exact er_cs_copy|].
    split; [intros; apply er_cs_swap|]. split; [exact er_cs_assign|]. intros. apply er_cs_swap.
  Qed.
  Lemma er_th_add d o : er (LkTupleHash.addDataImpl R sufS sufK dbg d o) (TupleHash.addDataImpl R sufS sufK dbg d o).
  Proof. unfold LkTupleHash.addDataImpl, TupleHash.addDataImpl. apply er_bind; [apply er_cs_add|]. intros. apply er_ok. Qed.
  Lemma er_imul x y : er (LkTupleHash.imul x y) (TupleHash.imul x y).
  Proof. unfold LkTupleHash.imul, TupleHash.imul. cbv zeta. apply er_tell. destruct (_ && _)%bool; [apply er_ok|apply er_ub]. Qed.
  Theorem tuple_faithful : ofaithful (TupleHash.cls log2 R sufS sufK P dbg) (tuple_hash log2 R sufS sufK P dbg).
  Proof.
    unfold ofaithful, TupleHash.cls, tuple_hash. cbn [Args OObj oc_construct oc_feed oc_finalize oc_reset oc_vector oc_copy oc_move oc_assign oc_massign ol_construct ol_feed ol_finalize ol_reset ol_vector ol_copy ol_move ol_assign ol_massign].
    split; [intros [l c]; apply er_bind; [apply er_cs_construct|intros; apply er_ok]|].
    split; [intros d x; unfold LkTupleHash.nextData, TupleHash.nextData; apply er_bind; [apply er_left|]; intros; apply er_bind; [apply er_th_add|]; intros; apply er_th_add|].
    split; [intros x; unfold LkTupleHash.finalize, TupleHash.finalize; apply er_bind; [apply er_imul|]; intros; apply er_bind; [apply er_right|]; intros; apply er_bind; [apply er_th_add|]; intros; apply er_bind; [apply er_cs_fin|]; intros; apply er_ok|].
    split; [intros x; apply er_bind; [apply er_cs_reset|]; intros; apply er_ok|]. split; [intros; apply er_cs_vector|]. split; [intros; apply er_bind; [apply er_cs_copy|]; intros; apply er_ok|].
    split; [intros x; unfold LkTupleHash.move_construct, TupleHash.move_construct, CShake.move_construct; unfold er; rewrite <- (er_cs_swap (CShake.mkObj false None None) (TupleHash.m_cshake x)) || idtac|].
    - unfold LkCShake.move_construct, Leak.bind. cbn [snd]. rewrite (er_cs_swap _ _). cbn [bind]. destruct (CShake.swap_selected _ _). reflexivity.
    - split; [intros; apply er_bind; [apply er_cs_assign|]; intros; apply er_ok|]. intros x y. unfold LkTupleHash.move_assign, TupleHash.move_assign, CShake.move_assign, LkCShake.move_assign, er, Leak.bind.
      cbn [snd]. rewrite (er_cs_swap _ _). cbn [bind]. destruct (CShake.swap_selected _ _). reflexivity.
  Qed.
End Classes.

Section Run.
  Variables (C : ObjClass) (L : OLeaky (Args C) (OObj C)).
  Hypothesis F : ofaithful C L.
  Lemma er_oget s i : er (oget C s i) (sget C s i).
  Proof using Type. unfold oget, sget. destruct (s i); reflexivity. Qed.
  Lemma er_pair {A B D} (m : Leak.res (A * B)) p (f : A -> B -> Leak.res D) g : er m (Ok p) -> (forall a b, er (f a b) (g a b)) -> er (Leak.bind m (fun q => let '(a, b) := q in f a b)) (let (a, b) := p in g a b).
  Proof using Type. intros M H. unfold er, Leak.bind in *. cbn [snd]. rewrite M. cbn [bind]. destruct p as [a b]. apply H. Qed.
  Lemma er_ocmd c s : er (run_ocmd C L c s) (exec_ocmd C c s).
  Proof using F.
    destruct F as (F1 & F2 & F3 & F4 & F5 & F6 & F7 & F8 & F9).
    assert (U : forall i f g, (forall x, er (f x) (g x)) -> er (oupdate C s i f) (update C s i g)) by (intros i f g H; unfold oupdate, update; apply er_bind; [apply er_oget|]; intros; apply er_bind; [apply H|]; intros; apply er_ok).
    assert (V : forall i f g, (forall x, er (f x) (g x)) -> er (oobserve C L s i f) (observe C s i g)) by (intros i f g H; unfold oobserve, observe; apply er_bind; [apply er_oget|]; intros; apply er_bind; [apply F5|]; intros; apply er_bind; [apply H|]; intros; apply er_ok).
    destruct c; cbn [run_ocmd exec_ocmd].
    - apply er_bind; [apply F1|]. intros. apply er_ok.
    - apply U, F2.
    - apply U, F3.
    - apply U, F4.
    - apply V. intros. apply er_ok.
    - apply V. er.
    - apply V. er.
    - apply V. er.
    - apply er_bind; [apply er_oget|]. intros. apply er_bind; [apply F6|]. intros. apply er_ok.
    - apply er_bind; [apply er_oget|]. intros. apply er_pair; [apply F7|]. intros. apply er_ok.
    - apply er_bind; [apply er_oget|]. intros. apply er_bind; [apply er_oget|]. intros. apply er_tell. destruct (_ =? _); [apply er_ok|]. apply er_bind; [apply F8|]. intros. apply er_ok.
    - apply er_bind; [apply er_oget|]. intros. apply er_bind; [apply er_oget|]. intros. apply er_tell. destruct (_ =? _); [apply er_ok|]. apply er_pair; [apply F9|]. intros. apply er_ok.
  Qed.
  Theorem er_orun p : forall s, er (orun C L p s) (oexec C p s).
  Proof using F. induction p as [|c p IH]; intros s; cbn [orun oexec]; [apply er_ok|]. apply er_bind; [apply er_ocmd|]. intros. apply er_bind; [apply IH|]. intros. apply er_ok. Qed.
End Run.
