(** Objects of sha3.h, cshake.h and tuple_hash.h do what Spec/Tape.v tells, in any order of calls. *)
From Coq Require Import List NArith ZArith Arith Bool Lia.
From Verif.Base Require Import Res CWord.
From Verif.Spec Require Import Words Client ObjClient Log2 KeccakTypes Sp800185 CShakeArgs Ownership Tape.
From Verif.Model Require Import Buffer Stream Api ObjApi KeccakObj.
From Verif.Spec Require Keccak.
From Verif.Model Require Keccak CShake TupleHash.
From Verif.Proof Require Import Words Streaming Blocks Api ObjApi Encode Tape.
From Verif.Proof Require Keccak CShake Ownership.
Import ListNotations.
Module K := Verif.Model.Keccak.
Module M := Verif.Model.CShake.
Module T := Verif.Model.TupleHash.
Module PC := Verif.Proof.CShake.
Module PK := Verif.Proof.Keccak.

(** ** from calls to programs *)
Record Follows (C : ObjClass) (k : kind (Args C)) (ok_args : Args C -> Prop) (ok_item : list N -> Prop)
    (rel : Held k -> OObj C -> Prop) : Prop := mkFollows {
  fo_new : forall a, ok_args a -> exists x, oc_construct C a = Ok x /\ rel (k_new k a) x;
  fo_feed : forall h x d, rel h x -> ok_item d ->
    match k_feed k d h with Some h' => exists y, oc_feed C d x = Ok y /\ rel h' y | None => oc_feed C d x = Ub NullDeref end;
  fo_fin : forall h x, rel h x ->
    match k_finalize k h with Some h' => exists y, oc_finalize C x = Ok y /\ rel h' y | None => oc_finalize C x = Ub NullDeref end;
  fo_reset : forall h x, rel h x ->
    match k_reset k h with Some h' => exists y, oc_reset C x = Ok y /\ rel h' y | None => oc_reset C x = Ub NullDeref end;
  fo_vec : forall h x, rel h x ->
    match k_digest k h with Some d => oc_vector C x = Ok d /\ bytes_ok d | None => oc_vector C x = Ub NullDeref end;
  fo_copy : forall h x, rel h x ->
    match k_copy k h with Some h' => exists y, oc_copy C x = Ok y /\ rel h' y | None => oc_copy C x = Ub NullDeref end;
  fo_move : forall h x, rel h x -> rel (fst (k_move k h)) (fst (oc_move C x)) /\ rel (snd (k_move k h)) (snd (oc_move C x));
  fo_assign : forall h g x y, rel h x -> rel g y ->
    match k_assign k h g with Some h' => exists z, oc_assign C x y = Ok z /\ rel h' z | None => oc_assign C x y = Ub NullDeref end;
  fo_massign : forall h g x y, rel h x -> rel g y ->
    rel (fst (k_massign k h g)) (fst (oc_massign C x y)) /\ rel (snd (k_massign k h g)) (snd (oc_massign C x y))
}.

Section Programs.
  Context {C : ObjClass} {k : kind (Args C)} {ok_args : Args C -> Prop} {ok_item : list N -> Prop} {rel : Held k -> OObj C -> Prop}.
  Hypothesis HF : Follows C k ok_args ok_item rel.

  Definition slot_rel (h : option (Held k)) (x : option (OObj C)) : Prop :=
    match h, x with None, None => True | Some h, Some x => rel h x | _, _ => False end.
  Definition all_rel (s : holdings k) (st : ostore C) : Prop := forall i, slot_rel (s i) (st i).

  Lemma put_all s st i h x : all_rel s st -> rel h x -> all_rel (hput k s i h) (sput C st i x).
  Proof using. intros H Hh j. unfold hput, sput. destruct (j =? i); [exact Hh|apply H]. Qed.

  Definition agrees1 (f : fate (holdings k * option obs)) (r : res (ostore C * option obs)) : Prop :=
    match f with
    | Goes (s, w) => exists st, r = Ok (st, w) /\ all_rel s st
    | NullPointer => r = Ub NullDeref
    | TextOfNothing => r = Ub EmptyFront
    | NoSuchObject => r = Ub UninitRead
    end.

  Lemma at_slot_ok s st i kf km : all_rel s st -> (forall h x, rel h x -> agrees1 (kf h) (km x)) ->
    agrees1 (at_slot k s i kf) (let! x := sget C st i in km x).
  Proof using.
    intros H Hk. specialize (H i). unfold at_slot, sget, slot_rel in *. destruct (s i), (st i); try contradiction; [|reflexivity].
    rewrite bind_ok. now apply Hk.
  Qed.

  Lemma becomes_ok s st i h' (r : res (OObj C)) : all_rel s st ->
    match h' with Some h => exists y, r = Ok y /\ rel h y | None => r = Ub NullDeref end ->
    agrees1 (becomes k s i h') (let! y := r in Ok (sput C st i y, None)).
  Proof using.
    intros H Hr. unfold becomes, if_there. destruct h' as [h|]; [|now rewrite Hr]. destruct Hr as (y & -> & Hy). rewrite bind_ok.
    eexists. split; [reflexivity|]. now apply put_all.
  Qed.

  Lemma shows_ok s st i (f : list N -> fate obs) (g : list N -> res obs) : all_rel s st ->
    (forall d, bytes_ok d -> match f d with Goes w => g d = Ok w | NullPointer => g d = Ub NullDeref
      | TextOfNothing => g d = Ub EmptyFront | NoSuchObject => g d = Ub UninitRead end) ->
    agrees1 (shows k s i f) (observe C st i g).
  Proof using HF.
    intros H Hf. unfold shows, observe. apply at_slot_ok; [exact H|]. intros h x Hh. pose proof (fo_vec _ _ _ _ _ HF h x Hh) as Hv.
    unfold if_there. destruct (k_digest k h) as [d|]; [|now rewrite Hv]. destruct Hv as [-> Hd]. rewrite bind_ok. specialize (Hf d Hd).
    destruct (f d); rewrite Hf; try reflexivity. rewrite bind_ok. eexists. split; [reflexivity|exact H].
  Qed.

  Lemma step_ok c s st : all_rel s st -> in_order ok_args ok_item c -> agrees1 (hstep k c s) (exec_ocmd C c st).
  Proof using HF.
    intros H Hc. destruct c as [i a|i d|i|i|i|i|i n|i|i j|i j|i j|i j]; cbn [hstep exec_ocmd in_order] in *.
    - destruct (fo_new _ _ _ _ _ HF a Hc) as (x & -> & Hx). rewrite bind_ok. eexists. split; [reflexivity|]. now apply put_all.
    - apply at_slot_ok; [exact H|]. intros h x Hh. apply becomes_ok; [exact H|]. exact (fo_feed _ _ _ _ _ HF h x d Hh Hc).
    - apply at_slot_ok; [exact H|]. intros h x Hh. apply becomes_ok; [exact H|]. exact (fo_fin _ _ _ _ _ HF h x Hh).
    - apply at_slot_ok; [exact H|]. intros h x Hh. apply becomes_ok; [exact H|]. exact (fo_reset _ _ _ _ _ HF h x Hh).
    - apply shows_ok; [exact H|]. reflexivity.
    - apply shows_ok; [exact H|]. intros d Hd. destruct d as [|b d]; [reflexivity|]. rewrite to_string_ok by (try exact Hd; discriminate). reflexivity.
    - apply shows_ok; [exact H|]. intros d Hd. rewrite to_uint_ok by exact Hd. reflexivity.
    - apply shows_ok; [exact H|]. intros d Hd. unfold std_hash. rewrite to_uint_ok by exact Hd. reflexivity.
    - apply at_slot_ok; [exact H|]. intros h x Hh. apply becomes_ok; [exact H|]. exact (fo_copy _ _ _ _ _ HF h x Hh).
    - apply at_slot_ok; [exact H|]. intros h x Hh. destruct (fo_move _ _ _ _ _ HF h x Hh) as [H1 H2].
      destruct (k_move k h) as [h1 h2], (oc_move C x) as [x1 x2]. cbn [fst snd] in *.
      eexists. split; [reflexivity|]. apply put_all; [|exact H1]. now apply put_all.
    - apply at_slot_ok; [exact H|]. intros h x Hh. apply at_slot_ok; [exact H|]. intros g y Hg.
      destruct (i =? j); [eexists; split; [reflexivity|exact H]|]. apply becomes_ok; [exact H|]. exact (fo_assign _ _ _ _ _ HF h g x y Hh Hg).
    - apply at_slot_ok; [exact H|]. intros h x Hh. apply at_slot_ok; [exact H|]. intros g y Hg.
      destruct (i =? j); [eexists; split; [reflexivity|exact H]|]. destruct (fo_massign _ _ _ _ _ HF h g x y Hh Hg) as [H1 H2].
      destruct (k_massign k h g) as [h1 h2], (oc_massign C x y) as [x1 x2]. cbn [fst snd] in *.
      eexists. split; [reflexivity|]. apply put_all; [|exact H1]. now apply put_all.
  Qed.

  Theorem story_ok p : Forall (in_order ok_args ok_item) p -> forall s st, all_rel s st ->
    match story k p s with
    | Goes (os, s') => exists st', oexec C p st = Ok (os, st') /\ all_rel s' st'
    | NullPointer => oexec C p st = Ub NullDeref
    | TextOfNothing => oexec C p st = Ub EmptyFront
    | NoSuchObject => oexec C p st = Ub UninitRead
    end.
  Proof using HF.
    induction 1 as [|c p Hc Hp IH]; intros s st H; cbn [story oexec]; [eauto|].
    pose proof (step_ok c s st H Hc) as H1. destruct (hstep k c s) as [[s1 w]| | |]; cbn [agrees1] in H1; try (now rewrite H1).
    destruct H1 as (st1 & -> & H1). rewrite bind_ok. cbn [fst snd]. specialize (IH s1 st1 H1).
    destruct (story k p s1) as [[os s2]| | |]; try (now rewrite IH).
    destruct IH as (st' & -> & H2). rewrite bind_ok. eexists. split; [reflexivity|exact H2].
  Qed.
End Programs.

(** ** sha3.h *)
Lemma template_q t : exists q, fst (template t) = 8 * q /\ rate t = 8 * (8 * q) /\ 0 < q /\ q <= 25.
Proof. destruct t; [exists 18|exists 17|exists 13|exists 9|exists 21|exists 17]; (split; [reflexivity|split; [reflexivity|split; lia]]). Qed.
Lemma template_suffix t : (snd (template t) < 128)%N /\ length (suffix t) <= 5 /\
  PK.byte_bits (snd (template t)) = suffix t ++ [true] ++ repeat false (7 - length (suffix t)).
Proof. destruct t; (split; [reflexivity|split; [cbn; lia|reflexivity]]). Qed.

Theorem sha3_follows t dbg : exists rel, Follows (objects t dbg) (sha3_kind t) length_ok span_ok rel.
Proof.
  destruct (template_q t) as (q & E1 & E2 & Hq & Hq25). destruct (template_suffix t) as (HP & Hs & Hb).
  exists (fun x o => tape_ok x /\ o = written q x). unfold objects, keccak_objects, sha3_kind. rewrite E1, E2.
  set (P := snd (template t)) in *.
  constructor; cbn [Args OObj oc_construct oc_feed oc_finalize oc_reset oc_vector oc_copy oc_move oc_assign oc_massign
    Held k_new k_feed k_finalize k_reset k_digest k_copy k_move k_assign k_massign fst snd].
  - intros d Hd. unfold length_ok in Hd. unfold K.construct. destruct (Z.ltb_spec d 0); [lia|]. eexists. split; [reflexivity|].
    destruct (new_tape q P dbg Hq Hq25 (suffix t) Hs Hb HP (Z.to_nat d)). auto.
  - intros h x d [H ->] Hd. destruct (feed_tape q P dbg Hq Hq25 (suffix t) Hs Hb HP h d H Hd). eauto.
  - intros h x [H ->]. destruct (finalize_tape q P dbg Hq Hq25 (suffix t) Hs Hb HP h H). eauto.
  - intros h x [H ->]. destruct (reset_tape q P dbg Hq Hq25 (suffix t) Hs Hb HP h H). eauto.
  - intros h x [H ->]. split; [reflexivity|apply H].
  - intros h x H. eauto.
  - intros h x [H ->]. destruct (moved_tape q h H). auto.
  - intros h g x y _ H. eauto.
  - intros h g x y _ [H ->]. destruct (moved_tape q g H). auto.
Qed.

(** ** cshake.h *)
Section CShake.
  Variables (log2 : N -> N) (dbg : bool).
  Hypothesis Hlog : log2_accurate log2.
  Variables (q : nat).
  Hypothesis Hq : 0 < q.
  Hypothesis Hq25 : q <= 25.
  Let R := 8 * q.
  Let r := 8 * R.
  Notation P := (N.of_nat R).
  Let suf (b : bool) : N := if b then 0x04%N else 0x1F%N.

  Definition prel (x : option tape) (o : option (Buffer * K.St)) : Prop :=
    match x, o with None, None => True | Some x, Some o => tape_ok x /\ o = written q x | _, _ => False end.
  Definition wrel (w : pair) (o : M.Obj) : Prop :=
    M.m_customized o = c_custom w /\ prel (c_tapes w false) (M.m_shake o) /\ prel (c_tapes w true) (M.m_keccak o).

  Lemma suffix_ok b : (suf b < 128)%N /\ length (cshake_suffix b) <= 5 /\
    PK.byte_bits (suf b) = cshake_suffix b ++ [true] ++ repeat false (7 - length (cshake_suffix b)).
  Proof using. destruct b; (split; [reflexivity|split; [apply Nat.leb_le; reflexivity|reflexivity]]). Qed.

  Lemma on_tape_ok (g : bool -> tape -> tape) (f : N -> Buffer * K.St -> res (Buffer * K.St)) w o : wrel w o ->
    (forall b x, tape_ok x -> f (suf b) (written q x) = Ok (written q (g b x)) /\ tape_ok (g b x)) ->
    match on_tape g w with
    | Some w' => exists o', M.on_selected 0x1F 0x04 f o = Ok o' /\ wrel w' o'
    | None => M.on_selected 0x1F 0x04 f o = Ub NullDeref
    end.
  Proof using.
    intros (H1 & H2 & H3) Hf. unfold M.on_selected, on_tape, selected, wrel. rewrite H1.
    destruct w as [[|] ps]; cbn [c_custom c_tapes negb] in *; unfold change; cbn [eqb].
    - destruct (ps true) as [p|], (M.m_keccak o) as [x|]; cbn [prel] in H3; try contradiction; [|reflexivity].
      cbn [M.deref]. rewrite bind_ok. destruct H3 as [H3 ->]. destruct (Hf true p H3) as [E Hy]. cbn [suf] in E. rewrite E, bind_ok. eexists. split; [reflexivity|].
      cbn [M.m_customized M.m_shake M.m_keccak c_custom c_tapes eqb]. split; [reflexivity|]. split; [exact H2|split; [exact Hy|reflexivity]].
    - destruct (ps false) as [p|], (M.m_shake o) as [x|]; cbn [prel] in H2; try contradiction; [|reflexivity].
      cbn [M.deref]. rewrite bind_ok. destruct H2 as [H2 ->]. destruct (Hf false p H2) as [E Hy]. cbn [suf] in E. rewrite E, bind_ok. eexists. split; [reflexivity|].
      cbn [M.m_customized M.m_shake M.m_keccak c_custom c_tapes eqb]. split; [reflexivity|]. split; [split; [exact Hy|reflexivity]|exact H3].
  Qed.

  Lemma feed_ok w o d : wrel w o -> span_ok d ->
    match on_tape (fun _ => t_feed d) w with
    | Some w' => exists o', M.addData R 0x1F 0x04 dbg d o = Ok o' /\ wrel w' o'
    | None => M.addData R 0x1F 0x04 dbg d o = Ub NullDeref
    end.
  Proof using Hq Hq25.
    intros H Hd. apply (on_tape_ok (fun _ => t_feed d)); [exact H|]. intros b x Hx. destruct (suffix_ok b) as (S1 & S2 & S3).
    exact (feed_tape q (suf b) dbg Hq Hq25 (cshake_suffix b) S2 S3 S1 x d Hx Hd).
  Qed.
  Lemma fin_ok w o : wrel w o ->
    match cshake_finalize r w with
    | Some w' => exists o', M.finalize R 0x1F 0x04 dbg o = Ok o' /\ wrel w' o'
    | None => M.finalize R 0x1F 0x04 dbg o = Ub NullDeref
    end.
  Proof using Hq Hq25.
    intros H. apply (on_tape_ok (fun b => t_finalize r (cshake_suffix b))); [exact H|]. intros b x Hx. destruct (suffix_ok b) as (S1 & S2 & S3).
    exact (finalize_tape q (suf b) dbg Hq Hq25 (cshake_suffix b) S2 S3 S1 x Hx).
  Qed.
  Lemma reset_ok w o : wrel w o ->
    match on_tape (fun _ => t_reset) w with
    | Some w' => exists o', M.reset 0x1F 0x04 o = Ok o' /\ wrel w' o'
    | None => M.reset 0x1F 0x04 o = Ub NullDeref
    end.
  Proof using Hq Hq25 dbg.
    intros H. apply (on_tape_ok (fun _ => t_reset)); [exact H|]. intros b x Hx. destruct (suffix_ok b) as (S1 & S2 & S3).
    destruct (reset_tape q (suf b) dbg Hq Hq25 (cshake_suffix b) S2 S3 S1 x Hx) as [-> H']. split; [reflexivity|exact H'].
  Qed.
  Lemma vec_ok w o : wrel w o ->
    match digest_of w with Some d => M.toVector o = Ok d /\ bytes_ok d | None => M.toVector o = Ub NullDeref end.
  Proof using.
    intros (H1 & H2 & H3). unfold M.toVector, digest_of, selected. rewrite H1. destruct w as [[|] ps]; cbn [c_custom c_tapes negb] in *.
    - destruct (ps true) as [p|], (M.m_keccak o) as [x|]; cbn [prel] in H3; try contradiction; [|reflexivity].
      destruct H3 as [H3 ->]. split; [reflexivity|apply H3].
    - destruct (ps false) as [p|], (M.m_shake o) as [x|]; cbn [prel] in H2; try contradiction; [|reflexivity].
      destruct H2 as [H2 ->]. split; [reflexivity|apply H2].
  Qed.
  Lemma copy_ok w o : wrel w o ->
    match cshake_copy w with
    | Some w' => exists o', M.copy_construct o = Ok o' /\ wrel w' o'
    | None => M.copy_construct o = Ub NullDeref
    end.
  Proof using.
    intros (H1 & H2 & H3). unfold M.copy_construct, cshake_copy, selected, wrel. rewrite H1. destruct w as [[|] ps]; cbn [c_custom c_tapes negb] in *; unfold change; cbn [eqb].
    - destruct (ps true) as [p|], (M.m_keccak o) as [x|]; cbn [prel] in H3; try contradiction; [|reflexivity].
      cbn [M.deref]. rewrite bind_ok. eexists. split; [reflexivity|]. split; [reflexivity|]. split; [exact I|exact H3].
    - destruct (ps false) as [p|], (M.m_shake o) as [x|]; cbn [prel] in H2; try contradiction; [|reflexivity].
      cbn [M.deref]. rewrite bind_ok. eexists. split; [reflexivity|]. split; [reflexivity|]. split; [exact H2|exact I].
  Qed.
  Lemma trade_ok w v x y : wrel w x -> wrel v y ->
    wrel (fst (trade w v)) (fst (M.swap_selected x y)) /\ wrel (snd (trade w v)) (snd (M.swap_selected x y)).
  Proof using.
    intros (H1 & H2 & H3) (G1 & G2 & G3). unfold M.swap_selected, trade, wrel. rewrite G1, H1.
    destruct v as [[|] ps]; cbn [c_custom c_tapes negb fst snd M.m_customized M.m_shake M.m_keccak] in *; unfold change; cbn [eqb]; auto 8.
  Qed.
  Lemma no_pair_ok : wrel no_pair (M.mkObj false None None).
  Proof using. split; [reflexivity|]. split; exact I. Qed.
  Lemma assign_ok w v x y : wrel w x -> wrel v y ->
    match cshake_assign w v with
    | Some w' => exists z, M.copy_assign x y = Ok z /\ wrel w' z
    | None => M.copy_assign x y = Ub NullDeref
    end.
  Proof using.
    intros (H1 & H2 & H3) (G1 & G2 & G3). unfold M.copy_assign, cshake_assign, selected, wrel. rewrite G1.
    destruct v as [[|] ps]; cbn [c_custom c_tapes negb] in *; unfold change; cbn [eqb].
    - destruct (c_tapes w true) as [p|], (M.m_keccak x) as [u|]; cbn [prel] in H3; try contradiction; [|reflexivity].
      destruct (ps true) as [p'|], (M.m_keccak y) as [u'|]; cbn [prel] in G3; try contradiction; [|reflexivity].
      cbn [M.deref]. rewrite !bind_ok. eexists. split; [reflexivity|]. split; [reflexivity|]. split; [exact H2|exact G3].
    - destruct (c_tapes w false) as [p|], (M.m_shake x) as [u|]; cbn [prel] in H2; try contradiction; [|reflexivity].
      destruct (ps false) as [p'|], (M.m_shake y) as [u'|]; cbn [prel] in G2; try contradiction; [|reflexivity].
      cbn [M.deref]. rewrite !bind_ok. eexists. split; [reflexivity|]. split; [reflexivity|]. split; [exact G2|exact H3].
  Qed.

  (** the constructor *)
  Definition kobj (d : nat) (m : list N) : M.Obj := M.mkObj true None (Some (written q (mkTape d m []))).
  Lemma kobj_ok d m : bytes_ok m -> tape_ok (mkTape d m []).
  Proof using. intros H. split; [exact H|]. split; [constructor|now left]. Qed.
  Lemma kadd d m x : bytes_ok m -> span_ok x -> M.addData R 0x1F 0x04 dbg x (kobj d m) = Ok (kobj d (m ++ x)).
  Proof using Hq Hq25.
    intros Hm Hx. destruct (suffix_ok true) as (S1 & S2 & S3).
    destruct (feed_tape q (suf true) dbg Hq Hq25 (cshake_suffix true) S2 S3 S1 (mkTape d m []) x (kobj_ok d m Hm) Hx) as [E _].
    unfold M.addData, M.on_selected, kobj. cbn [M.m_customized M.m_keccak M.m_shake negb M.deref]. fold R in E. rewrite bind_ok, E. reflexivity.
  Qed.
  Lemma process_ok d m s : bytes_ok m -> short s -> (N.of_nat (length m) < 2 ^ 60)%N ->
    M.processString log2 R 0x1F 0x04 dbg s (kobj d m) (N.of_nat (length m)) =
    Ok (kobj d (m ++ encode_string s), N.of_nat (length (m ++ encode_string s))).
  Proof using Hlog Hq Hq25.
    intros Hm Hs Hl. unfold M.processString. pose proof (PC.short_len s Hs) as Hsl. pose proof (proj2 Hs) as Hb.
    assert (umul 64 (N.of_nat (length s)) 8 = bit_length s) as ->.
    { unfold umul. rewrite trunc_id; [unfold bit_length; lia|]. unfold bnd. change (2 ^ 53)%N with 9007199254740992%N in Hsl.
      change (2 ^ 64)%N with 18446744073709551616%N. lia. }
    rewrite (leftEncode_ok log2 dbg Hlog _ Hb), bind_ok, canon_span, canon_size.
    pose proof (left_encode_length _ (max_2040 _ Hb)) as LL. pose proof (left_encode_bytes _ (max_2040 _ Hb)) as LB.
    rewrite kadd; [|exact Hm|apply PC.small_span; [exact LB|lia]]. rewrite bind_ok.
    rewrite kadd; [|apply bytes_ok_app; auto|now apply PC.short_span]. rewrite bind_ok.
    unfold encode_string. rewrite <- app_assoc. f_equal. f_equal. unfold uadd. rewrite !app_length.
    change (2 ^ 53)%N with 9007199254740992%N in Hsl. change (2 ^ 60)%N with 1152921504606846976%N in Hl.
    rewrite (trunc_id 64 (N.of_nat (length m) + _)) by (unfold bnd; change (2 ^ 64)%N with 18446744073709551616%N; lia).
    rewrite trunc_id by (unfold bnd; change (2 ^ 64)%N with 18446744073709551616%N; lia). lia.
  Qed.
  Lemma zeros_ok d : forall n m f, bytes_ok m ->
    for_ f n (fun _ o => M.addData R 0x1F 0x04 dbg [0%N] o) (kobj d m) = Ok (kobj d (m ++ repeat 0%N n)).
  Proof using Hq Hq25.
    induction n as [|n IH]; intros m f Hm; cbn [for_ repeat]; [now rewrite app_nil_r|].
    rewrite kadd; [|exact Hm|apply PC.small_span; [repeat constructor|cbn; lia]]. rewrite bind_ok.
    rewrite IH by (apply bytes_ok_app; split; [exact Hm|repeat constructor]). now rewrite <- app_assoc.
  Qed.

  Lemma new_ok a : ok_cargs a ->
    exists o, oc_construct (M.cls log2 R 0x1F 0x04 P dbg) a = Ok o /\ wrel (cshake_new r a) o.
  Proof using Hlog Hq Hq25.
    destruct a as [[l n] c]. intros (Hl & Hn & Hc). cbn [M.cls oc_construct]. unfold M.construct, cshake_new, cshake_head.
    change (M.is_empty n) with (is_nil n). change (M.is_empty c) with (is_nil c).
    assert (K.construct R l = Ok (K.new R (Z.to_nat l))) as ->.
    { unfold K.construct. destruct (Z.ltb_spec l 0); [lia|reflexivity]. }
    destruct (suffix_ok true) as (S1 & S2 & S3).
    destruct (new_tape q (suf true) dbg Hq Hq25 (cshake_suffix true) S2 S3 S1 (Z.to_nat l)) as [E0 T0]. fold R in E0. rewrite E0.
    destruct (is_nil n && is_nil c); cbn [negb]; rewrite bind_ok.
    - eexists. split; [reflexivity|]. split; [reflexivity|]. cbn [M.m_shake M.m_keccak c_tapes c_custom]. split; [|exact I].
      split; [exact T0|reflexivity].
    - change (M.mkObj true None _) with (kobj (Z.to_nat l) []).
      assert (N.of_nat R <= 2 ^ 56 - 2 ^ 8)%N as HP by (unfold R; change (2 ^ 56 - 2 ^ 8)%N with 72057594037927680%N; lia).
      rewrite (leftEncode_ok log2 dbg Hlog _ HP), bind_ok, canon_span, canon_size.
      pose proof (left_encode_length _ (max_2040 _ HP)) as LL. pose proof (left_encode_bytes _ (max_2040 _ HP)) as LB.
      set (w := left_encode P) in *.
      rewrite kadd; [|constructor|apply PC.small_span; [exact LB|lia]]. rewrite bind_ok. cbn [app].
      replace (uadd 64 0 (N.of_nat (length w))) with (N.of_nat (length w))
        by (unfold uadd; rewrite trunc_id; [lia|unfold bnd; change (2 ^ 64)%N with 18446744073709551616%N; lia]).
      rewrite process_ok; [|exact LB|exact Hn|change (2 ^ 60)%N with 1152921504606846976%N; lia]. rewrite bind_ok.
      assert (forall s, short s -> length (encode_string s) <= length s + 256 /\ bytes_ok (encode_string s)) as He.
      { intros s [Hs1 Hs2]. unfold encode_string. rewrite app_length. pose proof (left_encode_length _ (max_2040 _ Hs2)).
        split; [lia|]. apply bytes_ok_app. split; [|exact Hs1]. apply left_encode_bytes, max_2040, Hs2. }
      destruct (He n Hn) as [Ln Bn]. destruct (He c Hc) as [_ Bc]. pose proof (PC.short_len n Hn) as Sn.
      rewrite process_ok; [|apply bytes_ok_app; auto|exact Hc|rewrite app_length; change (2 ^ 60)%N with 1152921504606846976%N; change (2 ^ 53)%N with 9007199254740992%N in Sn; lia].
      rewrite bind_ok, PC.pad_count, zeros_ok by (rewrite ?bytes_ok_app; auto).
      eexists. split; [reflexivity|]. split; [reflexivity|]. cbn [M.m_shake M.m_keccak c_tapes c_custom kobj]. split; [exact I|].
      unfold change. cbn [eqb].
      assert (r / 8 = R) as -> by (unfold r; rewrite Nat.mul_comm; apply Nat.div_mul; lia).
      unfold bytepad. fold w. unfold t_feed, t_new. cbn [t_len t_in t_out app].
      rewrite <- !app_assoc. split; [|reflexivity]. apply kobj_ok. rewrite !bytes_ok_app. repeat split; auto.
      apply bytes_ok_repeat. reflexivity.
  Qed.

  Theorem cshake_follows : Follows (M.cls log2 R 0x1F 0x04 P dbg) (cshake_kind r) ok_cargs span_ok wrel.
  Proof using Hlog Hq Hq25.
    constructor; cbn [M.cls Args OObj oc_feed oc_finalize oc_reset oc_vector oc_copy oc_move oc_assign oc_massign
      cshake_kind Held k_new k_feed k_finalize k_reset k_digest k_copy k_move k_assign k_massign].
    - exact new_ok.
    - exact feed_ok.
    - exact fin_ok.
    - exact reset_ok.
    - exact vec_ok.
    - exact copy_ok.
    - intros w x H. apply trade_ok; [apply no_pair_ok|exact H].
    - exact assign_ok.
    - exact trade_ok.
  Qed.

  (** ** tuple_hash.h *)
  Definition twrel (w : pair * nat) (o : T.Obj) : Prop :=
    wrel (fst w) (T.m_cshake o) /\ (0 <= T.m_digestLength o < 2 ^ 28)%Z /\ snd w = Z.to_nat (T.m_digestLength o).

  Lemma impl_ok w o d : twrel w o -> span_ok d ->
    match on_tape (fun _ => t_feed d) (fst w) with
    | Some w' => exists o', T.addDataImpl R 0x1F 0x04 dbg d o = Ok o' /\ twrel (w', snd w) o'
    | None => T.addDataImpl R 0x1F 0x04 dbg d o = Ub NullDeref
    end.
  Proof using Hq Hq25.
    intros [H Hl] Hd. pose proof (feed_ok (fst w) _ d H Hd) as Hf. unfold T.addDataImpl. destruct (on_tape _ _) as [p|]; [|now rewrite Hf].
    destruct Hf as (o' & -> & Ho). rewrite bind_ok. eexists. split; [reflexivity|]. split; [exact Ho|exact Hl].
  Qed.

  Lemma wrel_ext w w' o : c_custom w = c_custom w' -> (forall b, c_tapes w b = c_tapes w' b) -> wrel w o -> wrel w' o.
  Proof using. intros E1 E2 (H1 & H2 & H3). split; [congruence|]. split; rewrite <- E2; assumption. Qed.

  (** feeding twice, seen from the outside *)
  Lemma on_tape_twice f g h w : (forall b x, h b x = g b (f b x)) ->
    match on_tape f w with
    | Some w' => exists w2 w3, on_tape g w' = Some w2 /\ on_tape h w = Some w3 /\ c_custom w2 = c_custom w3 /\ forall b, c_tapes w2 b = c_tapes w3 b
    | None => on_tape h w = None
    end.
  Proof using.
    intros E. unfold on_tape, selected. destruct w as [b ps]. cbn [c_custom c_tapes]. destruct (ps b) as [x|] eqn:Ex; [|reflexivity].
    cbn [c_custom c_tapes]. unfold change at 1. rewrite eqb_reflx. eexists. eexists. split; [reflexivity|]. split; [reflexivity|].
    split; [reflexivity|]. cbn [c_tapes]. intros b'. unfold change. destruct (eqb b' b); [|reflexivity]. now rewrite E.
  Qed.

  Theorem tuple_follows : Follows (T.cls log2 R 0x1F 0x04 P dbg) (tuple_kind r) ok_targs short twrel.
  Proof using Hlog Hq Hq25.
    constructor; cbn [T.cls Args OObj oc_construct oc_feed oc_finalize oc_reset oc_vector oc_copy oc_move oc_assign oc_massign
      tuple_kind Held k_new k_feed k_finalize k_reset k_digest k_copy k_move k_assign k_massign].
    - intros [l c] [Hl Hc]. unfold T.construct.
      destruct (new_ok (l, T.name, c)) as (o & E & Ho).
      { split; [lia|]. split; [|exact Hc]. split; [repeat constructor|]. unfold bit_length. apply N.leb_le. reflexivity. }
      cbn [M.cls oc_construct] in E. rewrite E, bind_ok. eexists. split; [reflexivity|]. split; [exact Ho|]. split; [exact Hl|reflexivity].
    - intros w x d H Hs. unfold T.nextData. pose proof (PC.short_len d Hs) as Hsl. pose proof (proj2 Hs) as Hb.
      assert (umul 64 (N.of_nat (length d)) 8 = bit_length d) as ->.
      { unfold umul. rewrite trunc_id; [unfold bit_length; lia|]. unfold bnd. change (2 ^ 53)%N with 9007199254740992%N in Hsl.
        change (2 ^ 64)%N with 18446744073709551616%N. lia. }
      rewrite (leftEncode_ok log2 dbg Hlog _ Hb), bind_ok, canon_span.
      pose proof (left_encode_length _ (max_2040 _ Hb)) as LL. pose proof (left_encode_bytes _ (max_2040 _ Hb)) as LB.
      pose proof (impl_ok w x (left_encode (bit_length d)) H) as Hf.
      pose proof (on_tape_twice (fun _ => t_feed (left_encode (bit_length d))) (fun _ => t_feed d) (fun _ => t_feed (encode_string d)) (fst w)) as Ht.
      destruct (on_tape _ (fst w)) as [w'|].
      + destruct Hf as (o1 & -> & H1); [apply PC.small_span; [exact LB|lia]|]. rewrite bind_ok.
        pose proof (impl_ok _ o1 d H1 (PC.short_span d Hs)) as H2. cbn [fst snd] in H2.
        destruct Ht as (w2 & w3 & E2 & E3 & F1 & F2); [intros b y; unfold t_feed, encode_string; cbn [t_len t_in t_out]; now rewrite app_assoc|].
        rewrite E2 in H2. destruct H2 as (o2 & -> & H2 & L2). rewrite E3. cbn [also]. eexists. split; [reflexivity|]. split; [|exact L2].
        cbn [fst snd] in *. exact (wrel_ext _ _ _ F1 F2 H2).
      + rewrite Ht by (intros b y; unfold t_feed, encode_string; cbn [t_len t_in t_out]; now rewrite app_assoc). cbn [also].
        rewrite Hf; [reflexivity|apply PC.small_span; [exact LB|lia]].
    - intros w x H. unfold T.finalize. destruct H as (H & Hl & En). destruct (Ownership.digest_bits (T.m_digestLength x) Hl) as (E1 & E2 & Hv).
      rewrite E1, bind_ok.  rewrite E2. rewrite En. set (v := (8 * N.of_nat (Z.to_nat (T.m_digestLength x)))%N) in *.
      rewrite (rightEncode_ok log2 dbg Hlog _ Hv), bind_ok, canon_span.
      assert (length (right_encode v) <= 256) as LL.
      { destruct (byte_count_spec v (max_2040 _ Hv)) as (B & _). unfold right_encode. rewrite app_length, be_bytes_length. cbn [length]. lia. }
      pose proof (right_encode_bytes _ (max_2040 _ Hv)) as LB.
      pose proof (impl_ok w x (right_encode v) (conj H (conj Hl En))) as Hf. destruct (on_tape _ (fst w)) as [p|].
      + destruct Hf as (o1 & -> & H1 & L1 & N1); [apply PC.small_span; [exact LB|lia]|]. rewrite bind_ok. cbn [fst snd] in *.
        pose proof (fin_ok _ _ H1) as H2. destruct (cshake_finalize r p) as [w'|]; cbn [also]; [|now rewrite H2].
        destruct H2 as (o2 & -> & H2). rewrite bind_ok. eexists. split; [reflexivity|]. split; [exact H2|]. cbn [T.m_digestLength snd]. split; [exact L1|].
        now rewrite <- En.
      + rewrite Hf; [reflexivity|apply PC.small_span; [exact LB|lia]].
    - intros w x [H Hl]. unfold T.reset. pose proof (reset_ok (fst w) _ H) as Hf. destruct (on_tape _ (fst w)) as [p|]; cbn [also]; [|now rewrite Hf].
      destruct Hf as (o' & -> & Ho). rewrite bind_ok. eexists. split; [reflexivity|]. split; [exact Ho|exact Hl].
    - intros w x [H Hl]. exact (vec_ok (fst w) _ H).
    - intros w x [H Hl]. unfold T.copy_construct. pose proof (copy_ok (fst w) _ H) as Hf. destruct (cshake_copy (fst w)) as [p|]; cbn [also]; [|now rewrite Hf].
      destruct Hf as (o' & -> & Ho). rewrite bind_ok. eexists. split; [reflexivity|]. split; [exact Ho|exact Hl].
    - intros w x [H Hl]. unfold T.move_construct, M.move_construct. pose proof (trade_ok _ _ _ _ no_pair_ok H) as [H1 H2].
      destruct (M.swap_selected _ _) as [c1 c2]. split; (split; [assumption|exact Hl]).
    - intros w v x y [H Hl] [G Gl]. unfold T.copy_assign. pose proof (assign_ok _ _ _ _ H G) as Ha.
      destruct (cshake_assign (fst w) (fst v)) as [p|]; cbn [also]; [|now rewrite Ha].
      destruct Ha as (z & -> & Hz). rewrite bind_ok. eexists. split; [reflexivity|]. split; [exact Hz|exact Gl].
    - intros w v x y [H Hl] [G Gl]. unfold T.move_assign, M.move_assign. pose proof (trade_ok _ _ _ _ H G) as [H1 H2].
      destruct (M.swap_selected _ _) as [c1 c2]. split; (split; [assumption|exact Gl]).
  Qed.
End CShake.

(** ** as stated in Props *)
Definition obeys {C : ObjClass} {X} (f : fate (list obs * X)) (r : res (list obs * ostore C)) : Prop :=
  match f with
  | Goes (os, _) => exists st, r = Ok (os, st)
  | NullPointer => r = Ub NullDeref
  | TextOfNothing => r = Ub EmptyFront
  | NoSuchObject => r = Ub UninitRead
  end.

Lemma told_ok {C k ok_args ok_item rel} : Follows C k ok_args ok_item rel -> forall p, Forall (in_order ok_args ok_item) p ->
  obeys (told k p) (oexec C p (fun _ => None)).
Proof.
  intros HF p Hp. pose proof (story_ok HF p Hp (fun _ => None) (fun _ => None) (fun _ => I)) as H. unfold told, obeys.
  destruct (story k p (fun _ => None)) as [[os s]| | |]; try exact H. destruct H as (st & E & _). eauto.
Qed.

Theorem sha3_told t dbg p : Forall (in_order length_ok span_ok) p ->
  obeys (told (sha3_kind t) p) (oexec (objects t dbg) p (fun _ => None)).
Proof. destruct (sha3_follows t dbg) as (rel & HF). exact (told_ok HF p). Qed.

Theorem cshake_told lg dbg p : log2_accurate lg -> Forall (in_order ok_cargs span_ok) p ->
  obeys (told (cshake_kind rate128) p) (oexec (M.cls128 lg dbg) p (fun _ => None)) /\
  obeys (told (cshake_kind rate256) p) (oexec (M.cls256 lg dbg) p (fun _ => None)).
Proof.
  intros Hl Hp. split.
  - exact (told_ok (cshake_follows lg dbg Hl 21 ltac:(lia) ltac:(lia)) p Hp).
  - exact (told_ok (cshake_follows lg dbg Hl 17 ltac:(lia) ltac:(lia)) p Hp).
Qed.

Theorem tuple_told lg dbg p : log2_accurate lg -> Forall (in_order ok_targs short) p ->
  obeys (told (tuple_kind rate128) p) (oexec (T.cls128 lg dbg) p (fun _ => None)) /\
  obeys (told (tuple_kind rate256) p) (oexec (T.cls256 lg dbg) p (fun _ => None)).
Proof.
  intros Hl Hp. split.
  - exact (told_ok (tuple_follows lg dbg Hl 21 ltac:(lia) ltac:(lia)) p Hp).
  - exact (told_ok (tuple_follows lg dbg Hl 17 ltac:(lia) ltac:(lia)) p Hp).
Qed.

Lemma obeys_ok {C X} (f : fate (list obs * X)) (r : res (list obs * ostore C)) os st : obeys f r -> r = Ok (os, st) -> exists s, f = Goes (os, s).
Proof.
  intros H ->. destruct f as [[os' s]| | |]; cbn [obeys] in H; [|discriminate..]. destruct H as (st' & E). injection E as <- _. eauto.
Qed.
