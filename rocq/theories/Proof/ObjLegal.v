(** Safety of allowed programs, and agreement of two builds. *)
From Coq Require Import List NArith Arith Bool Lia.
From Verif.Base Require Import Res.
From Verif.Spec Require Import Words Client ObjClient ObjLegal.
From Verif.Model Require Import Stream ObjApi.
From Verif.Proof Require Import Api ObjApi.
Import ListNotations.

(** as Realizes, but reset() leads to another series of states (flag [r]) *)
Record Side (C : ObjClass) (empty : Args C -> bool) (ok_args : Args C -> Prop) (ok_item : list N -> Prop)
    (may_assign : slot (Args C) -> Args C -> Prop) (out : Args C -> bool -> list (list N) -> list N)
    (rel : Args C -> bool -> list (list N) -> bool -> OObj C -> Prop) : Prop := mkSide {
  sd_construct : forall a, ok_args a -> exists x, oc_construct C a = Ok x /\ rel a false [] false x;
  sd_feed : forall a r l x d, rel a r l false x -> ok_item d -> exists y, oc_feed C d x = Ok y /\ rel a r (l ++ [d]) false y;
  sd_fin : forall a r l x, rel a r l false x -> exists y, oc_finalize C x = Ok y /\ rel a r l true y;
  sd_reset : forall a r l b x, rel a r l b x -> exists y, oc_reset C x = Ok y /\ rel a true [] false y;
  sd_vec : forall a r l x, rel a r l true x -> oc_vector C x = Ok (out a r l) /\ bytes_ok (out a r l);
  sd_copy : forall a r l b x, rel a r l b x -> exists y, oc_copy C x = Ok y /\ rel a r l b y;
  sd_move : forall a r l b x, rel a r l b x -> rel a r l b (fst (oc_move C x));
  sd_assign : forall a' r' l' b' x a r l b y, rel a r l b y -> rel a' r' l' b' x -> may_assign (Live (mkO a' l' b')) a ->
    exists z, oc_assign C x y = Ok z /\ rel a r l b z;
  sd_massign : forall x a r l b y, rel a r l b y -> rel a r l b (fst (oc_massign C x y));
  sd_target : forall a sl, may_assign sl a -> exists o, sl = Live o;
  sd_empty : forall a r l, empty a = false -> out a r l <> []
}.

(** the same program for another class with corresponding arguments *)
Definition omap {A B} (f : A -> B) (c : ocmd A) : ocmd B :=
  match c with
  | Construct i a => Construct i (f a)
  | Feed i d => Feed i d
  | Fin i => Fin i
  | Rst i => Rst i
  | Vec i => Vec i
  | Str i => Str i
  | Uint i n => Uint i n
  | Std i => Std i
  | CopyConstruct i j => CopyConstruct i j
  | MoveConstruct i j => MoveConstruct i j
  | CopyAssign i j => CopyAssign i j
  | MoveAssign i j => MoveAssign i j
  end.
Lemma omap_id {A} (p : list (ocmd A)) : map (omap (fun a => a)) p = p.
Proof. induction p as [|c p IH]; [reflexivity|]. cbn [map]. rewrite IH. now destruct c. Qed.

Section Twin.
  Variables (C1 C2 : ObjClass) (f : Args C1 -> Args C2).
  Context {empty : Args C1 -> bool} {ok_args : Args C1 -> Prop} {ok_item : list N -> Prop} {may_assign : slot (Args C1) -> Args C1 -> Prop}.
  Context {empty2 : Args C2 -> bool} {ok_args2 : Args C2 -> Prop} {may_assign2 : slot (Args C2) -> Args C2 -> Prop}.
  Context {out1 : Args C1 -> bool -> list (list N) -> list N} {out2 : Args C2 -> bool -> list (list N) -> list N}.
  Context {rel1 : Args C1 -> bool -> list (list N) -> bool -> OObj C1 -> Prop}.
  Context {rel2 : Args C2 -> bool -> list (list N) -> bool -> OObj C2 -> Prop}.
  Hypothesis H1 : Side C1 empty ok_args ok_item may_assign out1 rel1.
  Hypothesis H2 : Side C2 empty2 ok_args2 ok_item may_assign2 out2 rel2.
  Hypothesis Hargs : forall a, ok_args a -> ok_args2 (f a).
  Hypothesis Hassign : forall a' l b a, may_assign (Live (mkO a' l b)) a -> may_assign2 (Live (mkO (f a') l b)) (f a).
  Hypothesis Hout : forall a r l, out2 (f a) r l = out1 a r l.

  Definition trel (sl : slot (Args C1)) (x1 : option (OObj C1)) (x2 : option (OObj C2)) : Prop :=
    match sl with
    | NoObject => True
    | Moved => exists y1 y2, x1 = Some y1 /\ x2 = Some y2
    | Live o => exists r y1 y2, x1 = Some y1 /\ x2 = Some y2 /\
        rel1 (o_args o) r (o_items o) (o_done o) y1 /\ rel2 (f (o_args o)) r (o_items o) (o_done o) y2
    end.

  Lemma get_twin s st1 st2 i o : (forall k, trel (s k) (st1 k) (st2 k)) -> s i = Live o ->
    exists r y1 y2, sget C1 st1 i = Ok y1 /\ sget C2 st2 i = Ok y2 /\
      rel1 (o_args o) r (o_items o) (o_done o) y1 /\ rel2 (f (o_args o)) r (o_items o) (o_done o) y2.
  Proof.
    intros H E. specialize (H i). rewrite E in H. destruct H as (r & y1 & y2 & E1 & E2 & H). exists r, y1, y2.
    unfold sget. now rewrite E1, E2.
  Qed.
  Lemma put_twin s st1 st2 i o r y1 y2 : (forall k, trel (s k) (st1 k) (st2 k)) ->
    rel1 (o_args o) r (o_items o) (o_done o) y1 -> rel2 (f (o_args o)) r (o_items o) (o_done o) y2 ->
    forall k, trel (oput s i (Live o) k) (sput C1 st1 i y1 k) (sput C2 st2 i y2 k).
  Proof. intros H A B k. unfold oput, sput. destruct (k =? i); [|apply H]. exists r, y1, y2. auto. Qed.
  Lemma gone_twin s st1 st2 j y1 y2 : (forall k, trel (s k) (st1 k) (st2 k)) ->
    forall k, trel (oput s j Moved k) (sput C1 st1 j y1 k) (sput C2 st2 j y2 k).
  Proof. intros H k. unfold oput, sput. destruct (k =? j); [|apply H]. exists y1, y2. auto. Qed.

  Notation dummy := (fun (a : Args C1) (_ : list (list N)) => if empty a then [] else [0%N]).

  Lemma step_twin c s s1 w st1 st2 : ostep dummy ok_args ok_item (fun _ => True) may_assign c s s1 w ->
    (forall k, trel (s k) (st1 k) (st2 k)) ->
    exists u1 u2 v, exec_ocmd C1 c st1 = Ok (u1, v) /\ exec_ocmd C2 (omap f c) st2 = Ok (u2, v) /\ forall k, trel (s1 k) (u1 k) (u2 k).
  Proof.
    intros Hs Hst. destruct Hs as [i a s Ha|i d a l s E Hd|i a l s E|i a l b s E Hr|i a l s E|i a l s E Hn|i n a l s E|i a l s E|i j o s E|i j o s N E|i j o s E Ha|i j o s N E Hi];
      cbn [exec_ocmd omap];
      try (destruct (get_twin s st1 st2 _ _ Hst E) as (r & x1 & x2 & E1 & E2 & R1 & R2); cbn [o_args o_items o_done] in R1, R2).
    - destruct (sd_construct _ _ _ _ _ _ _ H1 a Ha) as (x1 & -> & R1). destruct (sd_construct _ _ _ _ _ _ _ H2 (f a) (Hargs a Ha)) as (x2 & -> & R2).
      rewrite !bind_ok. do 3 eexists. split; [reflexivity|]. split; [reflexivity|]. now apply put_twin with (r := false).
    - destruct (sd_feed _ _ _ _ _ _ _ H1 _ _ _ _ d R1 Hd) as (y1 & F1 & Q1). destruct (sd_feed _ _ _ _ _ _ _ H2 _ _ _ _ d R2 Hd) as (y2 & F2 & Q2).
      unfold update. rewrite E1, E2, !bind_ok, F1, F2, !bind_ok. do 3 eexists. split; [reflexivity|]. split; [reflexivity|]. now apply put_twin with (r := r).
    - destruct (sd_fin _ _ _ _ _ _ _ H1 _ _ _ _ R1) as (y1 & F1 & Q1). destruct (sd_fin _ _ _ _ _ _ _ H2 _ _ _ _ R2) as (y2 & F2 & Q2).
      unfold update. rewrite E1, E2, !bind_ok, F1, F2, !bind_ok. do 3 eexists. split; [reflexivity|]. split; [reflexivity|]. now apply put_twin with (r := r).
    - destruct (sd_reset _ _ _ _ _ _ _ H1 _ _ _ _ _ R1) as (y1 & F1 & Q1). destruct (sd_reset _ _ _ _ _ _ _ H2 _ _ _ _ _ R2) as (y2 & F2 & Q2).
      unfold update. rewrite E1, E2, !bind_ok, F1, F2, !bind_ok. do 3 eexists. split; [reflexivity|]. split; [reflexivity|]. now apply put_twin with (r := true).
    - destruct (sd_vec _ _ _ _ _ _ _ H1 _ _ _ _ R1) as [F1 B1]. destruct (sd_vec _ _ _ _ _ _ _ H2 _ _ _ _ R2) as [F2 _]. rewrite Hout in F2.
      unfold observe. rewrite E1, E2, !bind_ok, F1, F2, !bind_ok. do 3 eexists. split; [reflexivity|]. split; [reflexivity|exact Hst].
    - destruct (sd_vec _ _ _ _ _ _ _ H1 _ _ _ _ R1) as [F1 B1]. destruct (sd_vec _ _ _ _ _ _ _ H2 _ _ _ _ R2) as [F2 _]. rewrite Hout in F2.
      assert (out1 a r l <> []) as Hne by (apply (sd_empty _ _ _ _ _ _ _ H1); destruct (empty a); congruence).
      unfold observe. rewrite E1, E2, !bind_ok, F1, F2, !bind_ok, to_string_ok by assumption.
      do 3 eexists. split; [reflexivity|]. split; [reflexivity|exact Hst].
    - destruct (sd_vec _ _ _ _ _ _ _ H1 _ _ _ _ R1) as [F1 B1]. destruct (sd_vec _ _ _ _ _ _ _ H2 _ _ _ _ R2) as [F2 _]. rewrite Hout in F2.
      unfold observe. rewrite E1, E2, !bind_ok, F1, F2, !bind_ok, to_uint_ok by assumption.
      do 3 eexists. split; [reflexivity|]. split; [reflexivity|exact Hst].
    - destruct (sd_vec _ _ _ _ _ _ _ H1 _ _ _ _ R1) as [F1 B1]. destruct (sd_vec _ _ _ _ _ _ _ H2 _ _ _ _ R2) as [F2 _]. rewrite Hout in F2.
      unfold observe, std_hash. rewrite E1, E2, !bind_ok, F1, F2, !bind_ok, to_uint_ok by assumption.
      do 3 eexists. split; [reflexivity|]. split; [reflexivity|exact Hst].
    - destruct (sd_copy _ _ _ _ _ _ _ H1 _ _ _ _ _ R1) as (y1 & F1 & Q1). destruct (sd_copy _ _ _ _ _ _ _ H2 _ _ _ _ _ R2) as (y2 & F2 & Q2).
      rewrite E1, E2, !bind_ok, F1, F2, !bind_ok. do 3 eexists. split; [reflexivity|]. split; [reflexivity|]. now apply put_twin with (r := r).
    - pose proof (sd_move _ _ _ _ _ _ _ H1 _ _ _ _ _ R1) as Q1. pose proof (sd_move _ _ _ _ _ _ _ H2 _ _ _ _ _ R2) as Q2.
      rewrite E1, E2, !bind_ok. destruct (oc_move C1 x1) as [y1 z1], (oc_move C2 x2) as [y2 z2]. cbn [fst] in Q1, Q2.
      do 3 eexists. split; [reflexivity|]. split; [reflexivity|]. apply put_twin with (r := r); [now apply gone_twin|exact Q1|exact Q2].
    - destruct (sd_target _ _ _ _ _ _ _ H1 _ _ Ha) as (o' & Ei). destruct (get_twin s st1 st2 i o' Hst Ei) as (r' & t1 & t2 & G1 & G2 & S1 & S2).
      rewrite G1, G2, E1, E2, !bind_ok. destruct (Nat.eqb_spec i j) as [->|N].
      + do 3 eexists. split; [reflexivity|]. split; [reflexivity|].
        intros k. unfold oput. destruct (Nat.eqb_spec k j) as [->|_]; [|apply Hst]. rewrite <- E. apply Hst.
      + rewrite Ei in Ha. destruct o' as [a' l' b']. cbn [o_args o_items o_done] in S1, S2.
        destruct (sd_assign _ _ _ _ _ _ _ H1 _ _ _ _ t1 _ _ _ _ _ R1 S1 Ha) as (y1 & F1 & Q1).
        destruct (sd_assign _ _ _ _ _ _ _ H2 _ _ _ _ t2 _ _ _ _ _ R2 S2 (Hassign _ _ _ _ Ha)) as (y2 & F2 & Q2).
        rewrite F1, F2, !bind_ok. do 3 eexists. split; [reflexivity|]. split; [reflexivity|]. now apply put_twin with (r := r).
    - assert (exists t1 t2, sget C1 st1 i = Ok t1 /\ sget C2 st2 i = Ok t2) as (t1 & t2 & G1 & G2).
      { pose proof (Hst i) as Hx. unfold sget. destruct (s i) as [| |o']; [contradiction| |].
        - destruct Hx as (t1 & t2 & -> & ->). eauto.
        - destruct Hx as (r' & t1 & t2 & -> & -> & _). eauto. }
      rewrite G1, G2, E1, E2, !bind_ok. destruct (Nat.eqb_spec i j) as [->|_]; [contradiction|].
      pose proof (sd_massign _ _ _ _ _ _ _ H1 t1 _ _ _ _ _ R1) as Q1. pose proof (sd_massign _ _ _ _ _ _ _ H2 t2 _ _ _ _ _ R2) as Q2.
      destruct (oc_massign C1 t1 x1) as [y1 z1], (oc_massign C2 t2 x2) as [y2 z2]. cbn [fst] in Q1, Q2.
      do 3 eexists. split; [reflexivity|]. split; [reflexivity|]. apply put_twin with (r := r); [now apply gone_twin|exact Q1|exact Q2].
  Qed.

  Theorem allowed_twin p : allowed empty ok_args ok_item may_assign p ->
    exists os u1 u2, oexec C1 p (fun _ => None) = Ok (os, u1) /\ oexec C2 (map (omap f) p) (fun _ => None) = Ok (os, u2).
  Proof.
    intros (os & s' & H).
    enough (forall st1 st2, (forall k, trel NoObject (st1 k) (st2 k)) -> exists os u1 u2,
      oexec C1 p st1 = Ok (os, u1) /\ oexec C2 (map (omap f) p) st2 = Ok (os, u2)) as G by (apply G; intros k; exact I).
    change (forall st1 st2, (forall k, trel ((fun _ : nat => NoObject) k) (st1 k) (st2 k)) -> exists os u1 u2,
      oexec C1 p st1 = Ok (os, u1) /\ oexec C2 (map (omap f) p) st2 = Ok (os, u2)).
    induction H as [s|c rest s s1 w os s' Hs Hr IH]; intros st1 st2 Hst.
    - exists [], st1, st2. split; reflexivity.
    - destruct (step_twin _ _ _ _ st1 st2 Hs Hst) as (u1 & u2 & v & F1 & F2 & Hu).
      destruct (IH u1 u2 Hu) as (os' & t1 & t2 & G1 & G2).
      eexists. exists t1, t2. cbn [map oexec]. rewrite F1, F2, !bind_ok. cbn [fst snd]. rewrite G1, G2, !bind_ok. split; reflexivity.
  Qed.
End Twin.
