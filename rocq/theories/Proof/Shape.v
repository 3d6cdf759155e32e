(** Every object that any program produces holds words of the declared width, and the array that
    operator== compares determines what toArray() returns. *)
From Coq Require Import List NArith ZArith Arith Bool Lia.
From Verif.Base Require Import Res CWord.
From Verif.Spec Require Import Words Client Legal.
From Verif.Model Require Import Buffer Stream Api Call Counter BlakeMix Library.
From Verif.Model Require Blake1 Blake2 Crc32 Fnv Has160 Keccak Md2 Md4 Md5 Ripemd Sha1 Sha2 SipHash Sm3 Tiger Whirlpool.
From Verif.Model.Gen Require Crc32Table WhirlpoolTables TigerTables Md2Tables Blake1Tables.
From Verif.Proof Require Import Words Rounds Class Post.
From Verif.Proof Require Encode.
Import ListNotations.
Local Open Scope N_scope.

(** ** Classes from their compression functions *)
Lemma md_kept {H} B dbg pb wl (compress : list N -> H -> res H) iv arr (I : H -> Prop) :
  I iv -> (forall m h, I h -> post (compress m h) I) ->
  Kept (md_class B dbg pb wl compress iv arr) (fun o => I (md_h (snd o))).
Proof.
  intros Hiv Hc.
  assert (forall d s, I (md_h s) -> post (md_impl B dbg compress d s) (fun s => I (md_h s))) as Himpl.
  { intros d s Hs. unfold md_impl. apply post_any. intros _. apply (post_bind _ _ _ _ (post_block_loop B compress I Hc d _ Hs)).
    intros h Hh. apply post_ok, Hh. }
  constructor; cbn [md_class c_new c_add c_finalize c_reset Obj].
  - exact Hiv.
  - intros d x _ Hx. exact (post_addData B (2 * B) dbg _ (fun s => I (md_h s)) Himpl d x Hx).
  - intros [b s] Hs. unfold md_finalize. do 3 (apply post_any; intros ?).
    apply (post_bind _ _ (fun s => I (md_h s))); [apply Himpl, Hs|]. intros s' Hs'. apply post_ok, Hs'.
  - intros x _. exact Hiv.
Qed.

Lemma md128_kept {H} B r dbg (compress : list N -> H -> res H) iv arr (I : H -> Prop) :
  I iv -> (forall m h, I h -> post (compress m h) I) ->
  Kept (md128_class B r dbg compress iv arr) (fun o => I (md8_h (snd o))).
Proof.
  intros Hiv Hc.
  assert (forall d s, I (md8_h s) -> post (md128_impl B dbg compress d s) (fun s => I (md8_h s))) as Himpl.
  { intros d s Hs. unfold md128_impl. apply post_any. intros _. apply (post_bind _ _ _ _ (post_block_loop B compress I Hc d _ Hs)).
    intros h Hh. apply post_ok, Hh. }
  constructor; cbn [md128_class c_new c_add c_finalize c_reset Obj].
  - exact Hiv.
  - intros d x _ Hx. exact (post_addData B (2 * B) dbg _ (fun s => I (md8_h s)) Himpl d x Hx).
  - intros [b s] Hs. unfold md128_finalize. do 3 (apply post_any; intros ?).
    apply (post_bind _ _ (fun s => I (md8_h s))); [apply Himpl, Hs|]. intros s' Hs'. apply post_ok, Hs'.
  - intros x _. exact Hiv.
Qed.

(** ** Compression functions that end with m_h[i] += ... *)
Lemma add_loop w n k (r : list N) (st : list N) : words w n st ->
  post (for_ 0 k (fun i st => let! s := aget st i in let! v := aget r i in aset st i (uadd w s v)) st) (words w n).
Proof.
  intros H. apply (post_for (words w n)); [|exact H]. intros i s Hs. do 2 (apply post_any; intros ?). apply words_aset; auto with wb.
Qed.
Ltac skip := repeat match goal with |- post (bind _ _) _ => apply post_any; intros ? end.

Lemma sha1_words m h : words 32 5 h -> post (Model.Sha1.compress m h) (words 32 5).
Proof. intros H. unfold Model.Sha1.compress. skip. apply add_loop, H. Qed.
Lemma md4_words m h : words 32 4 h -> post (Model.Md4.compress m h) (words 32 4).
Proof. intros H. unfold Model.Md4.compress. skip. apply add_loop, H. Qed.
Lemma md5_words m h : words 32 4 h -> post (Model.Md5.compress m h) (words 32 4).
Proof. intros H. unfold Model.Md5.compress. skip. apply add_loop, H. Qed.
Lemma has160_words m h : words 32 5 h -> post (Model.Has160.compress m h) (words 32 5).
Proof. intros H. unfold Model.Has160.compress. skip. apply add_loop, H. Qed.
Lemma sha2_words w nb r a b c d K m h : words w 8 h -> post (Model.Sha2.compress w nb r a b c d K m h) (words w 8).
Proof. intros H. unfold Model.Sha2.compress. skip. apply add_loop, H. Qed.
Lemma ripemd256_words m h : words 32 8 h -> post (Model.Ripemd.compress256 m h) (words 32 8).
Proof. intros H. unfold Model.Ripemd.compress256, Model.Ripemd.add_all. skip. apply add_loop, H. Qed.
Lemma ripemd320_words m h : words 32 10 h -> post (Model.Ripemd.compress320 m h) (words 32 10).
Proof. intros H. unfold Model.Ripemd.compress320, Model.Ripemd.add_all. skip. apply add_loop, H. Qed.
Lemma mix_bnd st r j k l : post (Model.Ripemd.mix st r j k l) (bnd 32).
Proof. unfold Model.Ripemd.mix. skip. apply post_ok. auto with wb. Qed.
Ltac mixes := repeat first
  [ apply (post_bind _ _ _ _ (mix_bnd _ _ _ _ _)); intros ? ?
  | eapply post_bind; [apply words_aset; eassumption|]; intros ? ?
  | apply words_aset; assumption ].
Lemma ripemd128_words m h : words 32 4 h -> post (Model.Ripemd.compress128 m h) (words 32 4).
Proof. intros H. unfold Model.Ripemd.compress128. do 2 (apply post_any; intros ?). mixes. Qed.
Lemma ripemd160_words m h : words 32 5 h -> post (Model.Ripemd.compress160 m h) (words 32 5).
Proof. intros H. unfold Model.Ripemd.compress160. do 2 (apply post_any; intros ?). mixes. Qed.

(** ** ... with m_h[i] ^= ... *)
Lemma sm3_round w ff gg k t vs : Forall (bnd 32) vs -> post (Model.Sm3.round w ff gg k t vs) (Forall (fun p => bnd 32 (snd p))).
Proof.
  intros H. unfold Model.Sm3.round. do 8 (destruct vs as [|? vs]; [apply post_ub|]). destruct vs; [|apply post_ub].
  inv_Forall. skip. apply post_ok. unfold Model.Sm3.permutation0. repeat constructor; cbn [snd]; auto 8 with wb.
Qed.
Lemma sm3_words m h : words 32 8 h -> post (Model.Sm3.compress m h) (words 32 8).
Proof.
  intros H. unfold Model.Sm3.compress. apply post_any. intros w.
  apply (post_bind _ _ _ _ (words_mapM 32 8 h [0; 1; 2; 3; 4; 5; 6; 7]%nat H)). intros regs Hr.
  apply (post_bind _ _ (words 32 8)).
  - apply (post_foldM (words 32 8)); [|exact Hr]. intros c s Hs. unfold Model.Sm3.exec_call.
    destruct (c_fn c), (c_args c) as [|? [|? [|]]]; try apply post_ub; apply words_call; try exact Hs; intros; now apply sm3_round.
  - intros r Hr'. apply (post_for (words 32 8)); [|exact H]. intros i s Hs.
    apply (post_bind _ _ _ _ (words_aget 32 8 s i Hs)). intros a Ha. apply (post_bind _ _ _ _ (words_aget 32 8 r i Hr')). intros b Hb.
    apply words_aset; auto with wb.
Qed.

(** ** Whirlpool *)
Lemma tables_bounded w (T : list (list N)) : forallb (forallb (fun x => x <? 2 ^ w)) T = true -> Forall (Forall (bnd w)) T.
Proof. rewrite forallb_forall, Forall_forall. intros H x Hx. apply Forall_bndb, H, Hx. Qed.
Lemma cT_bnd k i : post (Model.Whirlpool.cT k i) (bnd 64).
Proof.
  unfold Model.Whirlpool.cT. apply (post_bind _ _ (Forall (bnd 64))); [|intros row; apply post_aget].
  apply post_aget, tables_bounded. vm_compute. reflexivity.
Qed.
Lemma func_bnd x a b c d e f g h : post (Model.Whirlpool.func x a b c d e f g h) (bnd 64).
Proof.
  unfold Model.Whirlpool.func. do 8 (apply post_any; intros ?; apply (post_bind _ _ _ _ (cT_bnd _ _)); intros ? ?).
  apply post_ok. repeat (apply bnd_lxor; [|assumption]). assumption.
Qed.
Lemma whirlpool_round r ks : post (Model.Whirlpool.round r ks) (fun ks => words 64 8 (fst ks) /\ words 64 8 (snd ks)).
Proof.
  destruct ks as [k s]. unfold Model.Whirlpool.round.
  apply (post_bind _ _ _ _ (func_bnd _ _ _ _ _ _ _ _ _)). intros ? ?.
  apply (post_bind _ _ (bnd 64)); [apply post_aget, Forall_bndb; vm_compute; reflexivity|]. intros ? ?.
  repeat (apply (post_bind _ _ _ _ (func_bnd _ _ _ _ _ _ _ _ _)); intros ? ?).
  apply post_ok. split; split; try reflexivity; cbn [fst snd]; repeat constructor; auto with wb.
Qed.
Lemma whirlpool_words m h : words 64 8 h -> post (Model.Whirlpool.compress m h) (words 64 8).
Proof.
  intros H. unfold Model.Whirlpool.compress. apply post_any. intros ks0.
  apply (post_bind _ _ (fun ks => words 64 8 (snd ks))).
  - change (for_ 0 10 Model.Whirlpool.round ks0) with (let! a := Model.Whirlpool.round 0 ks0 in for_ 1 9 Model.Whirlpool.round a).
    apply (post_bind _ _ _ _ (whirlpool_round _ _)). intros a [_ Ha].
    apply (post_for (fun ks => words 64 8 (snd ks))); [|exact Ha]. intros i s _.
    apply (post_weaken _ _ _ (whirlpool_round i s)). tauto.
  - intros ks Hks. apply (post_for (words 64 8)); [|exact H]. intros j s Hs.
    apply (post_bind _ _ _ _ (words_aget 64 8 _ j Hks)). intros a Ha. apply (post_bind _ _ _ _ (words_aget 64 8 s j Hs)). intros b Hb.
    apply (post_bind _ _ _ _ (post_load_be 8 m j)). intros c Hc. apply words_aset; [exact Hs|]. auto with wb.
Qed.

(** ** Tiger *)
Definition triple (h : N * N * N) : Prop := words 64 3 (tuple3 h).
Lemma triple_iff a b c : triple (a, b, c) <-> bnd 64 a /\ bnd 64 b /\ bnd 64 c.
Proof.
  unfold triple, words, tuple3. split.
  - intros [_ H]. inv_Forall. auto.
  - intros (Ha & Hb & Hc). split; [reflexivity|]. repeat constructor; assumption.
Qed.
Lemma tiger_round a b c x m : triple (a, b, c) -> bnd 64 x -> post (Model.Tiger.round a b c x m) triple.
Proof.
  rewrite triple_iff. intros (Ha & Hb & Hc) Hx. unfold Model.Tiger.round. skip. apply post_ok, triple_iff. auto with wb.
Qed.
Lemma triple_rot a b c : triple (a, b, c) -> triple (b, c, a).
Proof. rewrite !triple_iff. tauto. Qed.
Lemma tiger_pass n x a b c m : words 64 n x -> triple (a, b, c) -> post (Model.Tiger.pass x a b c m) triple.
Proof.
  intros Hx H. unfold Model.Tiger.pass.
  repeat (apply (post_bind _ _ _ _ (words_aget 64 n x _ Hx)); intros ? ?;
    eapply post_bind; [apply tiger_round; [first [assumption | apply triple_rot; assumption | apply triple_rot, triple_rot; assumption]|assumption]|];
    intros [[? ?] ?] ?).
  apply post_ok. first [assumption | apply triple_rot; assumption | apply triple_rot, triple_rot; assumption].
Qed.
Lemma tiger_schedule x : words 64 8 x -> post (Model.Tiger.keySchedule x) (words 64 8).
Proof.
  intros [_ H]. unfold Model.Tiger.keySchedule. do 8 (destruct x as [|? x]; [apply post_ub|]). destruct x; [|apply post_ub].
  inv_Forall. apply post_ok. split; [reflexivity|]. repeat constructor; auto 10 with wb.
Qed.
Lemma tiger_triple m h : triple h -> post (Model.Tiger.compress m h) triple.
Proof.
  intros H. unfold Model.Tiger.compress.
  apply (post_bind _ _ (words 64 8)).
  { apply (post_for (words 64 8)); [|split; [reflexivity|apply Forall_bndb; reflexivity]]. intros j s Hs.
    apply (post_bind _ _ _ _ (post_load_le 8 m j)). intros v Hv. apply words_aset; assumption. }
  intros x Hx. destruct h as [[aa bb] cc].
  apply (post_bind _ _ _ _ (tiger_pass 8 x _ _ _ 5 Hx H)). intros [[a b] c] H1.
  apply (post_bind _ _ _ _ (tiger_schedule x Hx)). intros x1 Hx1.
  apply (post_bind _ _ _ _ (tiger_pass 8 x1 _ _ _ 7 Hx1 (triple_rot _ _ _ (triple_rot _ _ _ H1)))). intros [[c1 a1] b1] H2.
  apply (post_bind _ _ _ _ (tiger_schedule x1 Hx1)). intros x2 Hx2.
  apply (post_bind _ _ _ _ (tiger_pass 8 x2 _ _ _ 9 Hx2 (triple_rot _ _ _ (triple_rot _ _ _ H2)))). intros [[b2 c2] a2] H3.
  apply post_ok. rewrite triple_iff in *. repeat split; try apply bnd_lxor; try apply bnd_usub; try apply bnd_uadd; tauto.
Qed.

(** ** BLAKE and BLAKE2 *)
Definition cbnd (K : Counter) (w : N) (c : ctr K) : Prop := bnd w (k_lo K c) /\ bnd w (k_hi K c).
(** [sound] counters have halves of the word width *)
Definition sound (K : Counter) (w : N) (I : ctr K -> Prop) : Prop :=
  I (k_zero K) /\ (forall c n, I c -> I (k_add K c n)) /\ (forall c, I c -> bnd w (k_lo K c) /\ bnd w (k_hi K c)).
Lemma sound64 : sound ctr64 32 (fun _ => True).
Proof. split; [exact I|]. split; [auto|]. intros c _. cbn [ctr64 k_lo k_hi]. auto with wb. Qed.
Lemma sound128 : sound ctr128 64 (fun c => bnd 64 (u_lo c) /\ bnd 64 (u_hi c)).
Proof.
  split; [split; reflexivity|]. split; [|auto]. intros c n [Hl Hh]. cbn [ctr128 k_add]. unfold u128_add. cbn [u_lo u_hi].
  split; [auto with wb|]. destruct (_ <? _); auto with wb.
Qed.

Lemma mix_words w n r1 r2 r3 r4 x y regs v : words w n v -> post (call_regs (blakeMix w r1 r2 r3 r4 x y) regs v) (words w n).
Proof.
  intros H. apply words_call; [exact H|]. intros vs Hvs. unfold blakeMix.
  do 4 (destruct vs as [|? vs]; [apply post_ub|]). destruct vs; [|apply post_ub]. inv_Forall. apply post_ok.
  repeat constructor; cbn [snd]; auto 20 with wb.
Qed.
Lemma fold_words w h v : words w 8 h -> words w 16 v ->
  post (for_ 0 8 (fun i h => let! hi := aget h i in let! vi := aget v i in let! vj := aget v (i + 8) in aset h i (N.lxor hi (N.lxor vi vj))) h)
    (words w 8).
Proof.
  intros Hh Hv. apply (post_for (words w 8)); [|exact Hh]. intros i s Hs.
  apply (post_bind _ _ _ _ (words_aget _ _ _ _ Hs)). intros ? ?. do 2 (apply (post_bind _ _ _ _ (words_aget _ _ _ _ Hv)); intros ? ?).
  apply words_aset; auto with wb.
Qed.
Lemma words_app w n k l r : words w n l -> words w k r -> words w (n + k) (l ++ r).
Proof. intros [H1 H2] [H3 H4]. split; [rewrite app_length; congruence|]. apply Forall_app. auto. Qed.

Section Blake1.
  Variables (w : N) (nb : nat) (r1 r2 r3 r4 : N) (cTable : list N) (F : Type) (calls : list (call F)) (K : Counter).
  Variables (narrow lastbit dbg : bool) (J : ctr K -> Prop).
  Hypothesis HJ : sound K w J.
  Hypothesis HT : Forall (bnd w) cTable.
  Let inv (s : ctr K * list N) := J (fst s) /\ words w 8 (snd s).

  Lemma blake1_words p m s : inv s -> post (Model.Blake1.compress w nb r1 r2 r3 r4 cTable F calls K narrow p m s) inv.
  Proof.
    destruct s as [c h]. intros [Hc Hh]. cbn [fst snd] in *. unfold Model.Blake1.compress.
    apply (post_bind _ _ _ _ (words_mapM w 8 h (seq 0 8) Hh)). intros hs Hhs.
    apply (post_bind _ _ (words w 8)).
    { apply (post_mapM (aget cTable) (bnd w) (seq 0 8)). intros a. apply post_aget, HT. }
    intros cs Hcs. pose proof (words_app w 8 8 hs cs Hhs Hcs) as Hv. cbv zeta.
    set (c' := k_add K c _). assert (J c') as Hc' by apply HJ, Hc. destruct HJ as (_ & _ & Hlh). destruct (Hlh c' Hc') as [Hlo Hhi].
    clearbody c'. apply (post_bind _ _ (words w 16)).
    - destruct (0 <? _)%Z; [|apply post_ok, Hv].
      do 3 (apply (post_bind _ _ (bnd w)); [eapply words_aget; eassumption|]; intros ? ?;
        eapply post_bind; [apply words_aset; [eassumption|auto with wb]|]; intros ? ?).
      apply (post_bind _ _ (bnd w)); [eapply words_aget; eassumption|]; intros ? ?. apply words_aset; auto with wb.
    - intros v1 Hv1. apply (post_bind _ _ (words w 16)).
      + apply (post_foldM (words w 16)); [|exact Hv1]. intros cl s Hs. unfold Model.Blake1.exec_call.
        destruct (c_args cl) as [|? [|? [|? [|? [|]]]]]; try apply post_ub. skip. apply mix_words, Hs.
      + intros v2 Hv2. apply (post_bind _ _ _ _ (fold_words w h v2 Hh Hv2)). intros h' Hh'. apply post_ok. split; assumption.
  Qed.

  Lemma blake1_kept iv size n : words w 8 iv ->
    Kept (Model.Blake1.cls w nb r1 r2 r3 r4 cTable F calls K narrow lastbit dbg iv size n) (fun o => inv (snd o)).
  Proof.
    intros Hiv.
    assert (forall p d s, inv s -> post (Model.Blake1.impl w nb r1 r2 r3 r4 cTable F calls K narrow dbg p d s) inv) as Himpl.
    { intros p d s Hs. unfold Model.Blake1.impl. apply post_any. intros _. apply post_block_loop; [|exact Hs]. apply blake1_words. }
    constructor; cbn [Model.Blake1.cls stream_class c_new c_add c_finalize c_reset Obj].
    - split; [apply HJ|exact Hiv].
    - intros d x _ Hx. refine (post_addData _ _ dbg _ inv _ d x Hx). intros. now apply Himpl.
    - intros [b s] Hs. cbn [snd] in Hs. unfold Model.Blake1.finalize. do 4 (apply post_any; intros ?).
      apply (post_bind _ _ inv); [apply Himpl, Hs|]. intros s' Hs'. apply post_ok, Hs'.
    - intros x _. split; [apply HJ|exact Hiv].
  Qed.
End Blake1.

Section Blake2.
  Variables (w : N) (nb : nat) (r1 r2 r3 r4 : N) (IV : list N) (F : Type) (calls : list (call F)) (K : Counter).
  Variables (dbg : bool) (J : ctr K -> Prop).
  Hypothesis HJ : sound K w J.
  Hypothesis HT : Forall (bnd w) IV.
  Let inv (s : ctr K * list N) := J (fst s) /\ words w 8 (snd s).

  Lemma blake2_words f p m s : inv s -> post (Model.Blake2.compress w nb r1 r2 r3 r4 IV F calls K f p m s) inv.
  Proof.
    destruct s as [c h]. intros [Hc Hh]. cbn [fst snd] in *. unfold Model.Blake2.compress. cbv zeta.
    set (c' := k_add K c _). assert (J c') as Hc' by apply HJ, Hc. destruct HJ as (_ & _ & Hlh). destruct (Hlh c' Hc') as [Hlo Hhi].
    clearbody c'.
    apply (post_bind _ _ _ _ (words_mapM w 8 h (seq 0 8) Hh)). intros hs Hhs.
    apply (post_bind _ _ (words w 4)).
    { apply (post_mapM (aget IV) (bnd w) (seq 0 4)). intros a. apply post_aget, HT. }
    intros ivs Hivs. do 4 (apply (post_bind _ _ (bnd w)); [apply post_aget, HT|]; intros ? ?).
    apply (post_bind _ _ (words w 16)).
    - apply (post_foldM (words w 16)).
      + intros cl s Hs. unfold Model.Blake2.exec_call. destruct (c_args cl) as [|? [|? [|]]]; try apply post_ub. skip. apply mix_words, Hs.
      + apply (words_app w 8 8); [exact Hhs|]. apply (words_app w 4 4); [exact Hivs|]. split; [reflexivity|].
        repeat constructor; try destruct f; auto with wb.
    - intros v2 Hv2. apply (post_bind _ _ _ _ (fold_words w h v2 Hh Hv2)). intros h' Hh'. apply post_ok. split; assumption.
  Qed.

  Lemma blake2_kept size : words w 8 (Model.Blake2.h_reset IV (N.of_nat size)) ->
    Kept (Model.Blake2.cls w nb r1 r2 r3 r4 IV F calls K dbg size) (fun o => inv (snd o)).
  Proof.
    intros Hiv.
    assert (forall f p d s, inv s -> post (Model.Blake2.impl w nb r1 r2 r3 r4 IV F calls K dbg f p d s) inv) as Himpl.
    { intros f p d s Hs. unfold Model.Blake2.impl. apply post_any. intros _. apply post_block_loop; [|exact Hs]. apply blake2_words. }
    constructor; cbn [Model.Blake2.cls c_new c_add c_finalize c_reset Obj].
    - split; [apply HJ|exact Hiv].
    - intros d x _ Hx. unfold Model.Blake2.addData.
      assert (forall d s, inv s -> post (Model.Blake2.addData_tail _ (Model.Blake2.BLOCK_SIZE nb) dbg
        (Model.Blake2.impl w nb r1 r2 r3 r4 IV F calls K dbg false 0) d s) (fun o => inv (snd o))) as Htail.
      { intros d' s Hs. unfold Model.Blake2.addData_tail. cbv zeta.
        match goal with |- post (if ?c then _ else _) _ => destruct c end; [|apply post_ub].
        apply post_any. intros ?. apply (post_bind _ _ inv); [apply Himpl, Hs|]. intros s' Hs'. apply post_any. intros ?. apply post_ok, Hs'. }
      generalize dependent x. generalize dependent d. generalize 3%nat as fuel.
      induction fuel as [|fuel IH]; intros d [b s] Hs; [apply post_ub|]. cbn [snd] in Hs. cbn [Model.Blake2.addData_rec].
      destruct d as [|y d]; [apply post_ok, Hs|]. destruct (_ =? _)%nat.
      + apply (post_bind _ _ inv); [apply Himpl, Hs|]. intros s' Hs'. apply Htail, Hs'.
      + destruct (negb _); [|apply Htail, Hs]. do 2 (apply post_any; intros ?). apply IH, Hs.
    - intros [b s] Hs. cbn [snd] in Hs. unfold Model.Blake2.finalize. apply post_any. intros ?.
      apply (post_bind _ _ inv); [apply Himpl, Hs|]. intros s' Hs'. apply post_ok, Hs'.
    - intros x _. split; [apply HJ|exact Hiv].
  Qed.
End Blake2.

(** ** CRC-32 and FNV *)
Lemma lut_bnd k i : post (Model.Crc32.lut k i) (bnd 32).
Proof.
  unfold Model.Crc32.lut. apply (post_bind _ _ (Forall (bnd 32))); [|intros row; apply post_aget].
  apply post_aget, tables_bounded. vm_compute. reflexivity.
Qed.
Lemma crc_kept : Kept Model.Crc32.cls (bnd 32).
Proof.
  constructor; cbn [Model.Crc32.cls c_new c_add c_finalize c_reset Obj].
  - reflexivity.
  - intros d x _ Hx. unfold Model.Crc32.addDataImpl. apply (post_bind _ _ (bnd 32)).
    + apply post_block_loop; [|exact Hx]. intros m h _. unfold Model.Crc32.block. cbv zeta.
      do 4 (apply post_any; intros ?). do 16 (apply (post_bind _ _ _ _ (lut_bnd _ _)); intros ? ?).
      apply post_ok. cbn [fold_left]. repeat (apply bnd_lxor; [|assumption]). assumption.
    + intros h Hh. apply (post_for (bnd 32)); [|exact Hh]. intros i s Hs. unfold Model.Crc32.byte. apply post_any. intros ?.
      apply (post_bind _ _ _ _ (lut_bnd _ _)). intros ? ?. apply post_ok. auto with wb.
  - intros x Hx. apply post_ok. auto with wb.
  - intros x _. reflexivity.
Qed.

Lemma fnv_kept size variant : size = 4%nat \/ size = 8%nat -> Kept (Model.Fnv.cls size variant) (bnd (8 * N.of_nat size)).
Proof.
  intros Hsz. assert (forall x, bnd (8 * N.of_nat size) x -> bnd (8 * N.of_nat size) (Model.Fnv.reset size variant x)) as Hr.
  { intros x Hx. unfold Model.Fnv.reset. destruct (1 <=? variant)%nat; [|exact Hx].
    destruct Hsz as [-> | ->]; [reflexivity|]. apply bnd_trunc. }
  assert (forall x, bnd (8 * N.of_nat size) (Model.Fnv.multiplyPrime size x)) as Hm.
  { intros x. unfold Model.Fnv.multiplyPrime, Model.Fnv.width. destruct Hsz as [-> | ->]; apply bnd_umul. }
  constructor; cbn [Model.Fnv.cls c_new c_add c_finalize c_reset Obj].
  - apply Hr, bnd_0.
  - intros d x Hd Hx. apply post_ok. unfold Model.Fnv.addDataImpl. revert x Hx.
    induction d as [|b d IH]; intros x Hx; [exact Hx|]. cbn [fold_left]. apply Forall_cons_iff in Hd. destruct Hd as [Hb Hd].
    apply (IH Hd). assert (bnd (8 * N.of_nat size) b) as Hb' by (apply (bnd_mono 8); [lia|exact Hb]).
    unfold Model.Fnv.step. destruct (variant <=? 1)%nat, (variant =? 2)%nat; auto with wb.
  - intros x Hx. apply post_ok, Hx.
  - exact Hr.
Qed.

(** ** MD2 and SipHash: only the sizes matter *)
Lemma aset_length {A} n (l : list A) i v : length l = n -> post (aset l i v) (fun r => length r = n).
Proof. intros H r E. unfold aset in E. destruct (i <? length l)%nat; [|discriminate]. injection E as <-. now rewrite upd_length. Qed.
Lemma md2_kept dbg : Kept (Model.Md2.cls dbg) (fun o => length (Model.Md2.m_x (snd o)) = 48%nat).
Proof.
  assert (forall d s, length (Model.Md2.m_x s) = 48%nat -> post (Model.Md2.addDataImpl d s) (fun s => length (Model.Md2.m_x s) = 48%nat)) as Himpl.
  { intros d s Hs. apply (post_block_loop 16 Model.Md2.compress (fun s => length (Model.Md2.m_x s) = 48%nat)); [|exact Hs].
    clear. intros m s Hs. unfold Model.Md2.compress. apply post_any. intros c.
    apply (post_bind _ _ (fun x => length x = 48%nat)).
    { unfold Model.Md2.copy_loop. apply (post_for (fun x : list N => length x = 48%nat)); [|exact Hs]. intros j x Hx.
      apply post_any. intros ?. apply (post_bind _ _ _ _ (aset_length 48 _ _ _ Hx)). intros x1 Hx1.
      do 2 (apply post_any; intros ?). apply aset_length, Hx1. }
    intros x Hx. apply (post_bind _ _ (fun r => length (fst r) = 48%nat)); [|intros r Hr; apply post_ok, Hr].
    unfold Model.Md2.round_loop. apply (post_for (fun r : list N * N => length (fst r) = 48%nat)); [|exact Hx].
    intros j r Hr. apply (post_bind _ _ (fun r : list N * N => length (fst r) = 48%nat)); [|intros r' Hr'; apply post_ok, Hr'].
    apply (post_for (fun r : list N * N => length (fst r) = 48%nat)); [|exact Hr]. intros k [x' t] Hx'.
    do 2 (apply post_any; intros ?). apply (post_bind _ _ _ _ (aset_length 48 _ _ _ Hx')). intros x1 Hx1. apply post_ok, Hx1. }
  constructor; cbn [Model.Md2.cls stream_class c_new c_add c_finalize c_reset Obj].
  - reflexivity.
  - intros d x _ Hx. exact (post_addData 16 32 dbg _ (fun s => length (Model.Md2.m_x s) = 48%nat) Himpl d x Hx).
  - intros [b s] Hs. unfold Model.Md2.finalize. apply post_any. intros ?.
    apply (post_bind _ _ _ _ (Himpl _ s Hs)). intros s1 Hs1. apply (post_bind _ _ _ _ (Himpl _ s1 Hs1)). intros s2 Hs2. apply post_ok, Hs2.
  - intros x _. reflexivity.
Qed.
Lemma trivial_kept C : Kept C (fun _ => True).
Proof. constructor; try exact I; intros; try (intros ? ?); exact I. Qed.

(** ** SHA-3 *)
Lemma keccak_kept R P dbg d : Kept (Model.Keccak.cls R P dbg d) (fun o => length (Model.Keccak.k_state (snd o)) = 25%nat).
Proof.
  set (J := fun s => length (Model.Keccak.k_state s) = 25%nat). set (L := fun l : list N => length l = 25%nat).
  assert (forall r l, L l -> post (Model.Keccak.roundFunction r l) L) as Hround.
  { intros r l Hl. unfold Model.Keccak.roundFunction.
    apply (post_bind _ _ L).
    { unfold Model.Keccak.theta. do 5 (apply post_any; intros ?). apply (post_for L); [|exact Hl]. intros y s Hs.
      apply (post_for L); [|exact Hs]. intros x t Ht. do 2 (apply post_any; intros ?). apply aset_length, Ht. }
    intros l1 H1. apply (post_bind _ _ L).
    { unfold Model.Keccak.rhoPiChi. apply post_any. intros tmp. unfold Model.Keccak.chi. apply (post_for L); [|exact H1].
      intros y s Hs. apply (post_foldM L); [|exact Hs]. intros [[i j] k] t Ht. do 3 (apply post_any; intros ?). apply aset_length, Ht. }
    intros l2 H2. unfold Model.Keccak.iota. do 2 (apply post_any; intros ?). apply aset_length, H2. }
  assert (forall data s, J s -> post (Model.Keccak.impl R dbg data s) J) as Himpl.
  { intros data s Hs. unfold Model.Keccak.impl. apply post_any. intros _.
    apply (post_bind _ _ L); [|intros l Hl; apply post_ok, Hl]. apply post_block_loop; [|exact Hs]. intros m l Hl.
    unfold Model.Keccak.compress. apply (post_bind _ _ L).
    - apply (post_for L); [|exact Hl]. intros i t Ht. do 2 (apply post_any; intros ?). apply aset_length, Ht.
    - intros l1 H1. apply (post_for L); [|exact H1]. exact Hround. }
  constructor; cbn [Model.Keccak.cls c_new c_add c_finalize c_reset Obj].
  - reflexivity.
  - intros data x _ Hx. exact (post_addData R R dbg _ J Himpl data x Hx).
  - intros [b s] Hs. unfold Model.Keccak.finalize. do 4 (apply post_any; intros ?).
    apply (post_bind _ _ _ _ (Himpl _ s Hs)). intros s1 Hs1.
    apply (post_bind _ _ J); [|intros s2 Hs2; apply post_ok, Hs2].
    assert (forall fuel s, J s -> post (Model.Keccak.squish R dbg fuel s) J) as Hsq; [|apply Hsq, Hs1].
    clear - Himpl. induction fuel as [|k IH]; intros s Hs; [apply post_ub|]. cbn [Model.Keccak.squish]. apply post_any. intros head.
    destruct (_ <=? _)%nat; [apply post_ok, Hs|]. apply (post_bind _ _ J); [apply Himpl, Hs|]. exact IH.
  - intros x _. reflexivity.
Qed.
