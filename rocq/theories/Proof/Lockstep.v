(** Two runs of the same code on data of the same sizes: buffers are filled alike, counters count alike. *)
From Coq Require Import List NArith ZArith Arith Bool Lia.
From Verif.Base Require Import Res CWord.
From Verif.Model Require Import Buffer Stream Counter Api.
From Verif.Proof Require Import Words.
From Verif.Model Require Call Blake1 Blake2 SipHash Keccak Md2.
Import ListNotations.

Definition both {A B} (R : A -> B -> Prop) (a : res A) (b : res B) : Prop := forall x y, a = Ok x -> b = Ok y -> R x y.

Lemma both_ok {A B} (R : A -> B -> Prop) x y : R x y -> both R (Ok x) (Ok y).
Proof. intros H u v [= <-] [= <-]. exact H. Qed.
Lemma both_bind {A B C D} (R : A -> B -> Prop) (Q : C -> D -> Prop) a b f g :
  both R a b -> (forall x y, R x y -> both Q (f x) (g y)) -> both Q (bind a f) (bind b g).
Proof.
  intros H K p q E1 E2. destruct a as [x| |]; [|discriminate E1|discriminate E1]. destruct b as [y| |]; [|discriminate E2|discriminate E2]. rewrite bind_ok in E1. rewrite bind_ok in E2.
  exact (K x y (H x y eq_refl eq_refl) p q E1 E2).
Qed.
Lemma both_any {A B C D} (Q : C -> D -> Prop) (a : res A) (b : res B) f g : (forall x y, both Q (f x) (g y)) -> both Q (bind a f) (bind b g).
Proof. intros K. apply (both_bind (fun _ _ => True)); [intros ? ? _ _; exact I|auto]. Qed.
Lemma both_fail {A B} (R : A -> B -> Prop) u b : both R (Ub u) b.
Proof. intros ? ? [=]. Qed.
Lemma both_for {A} (R : A -> A -> Prop) f g n : (forall i x y, R x y -> both R (f i x) (g i y)) ->
  forall i x y, R x y -> both R (for_ i n f x) (for_ i n g y).
Proof. intros H. induction n as [|n IH]; intros i x y Hxy; cbn [for_]; [now apply both_ok|]. apply (both_bind R); [auto|]. intros; apply IH; assumption. Qed.
Lemma both_fold {A C D} (R : A -> A -> Prop) (T : C -> D -> Prop) f g : (forall c d x y, T c d -> R x y -> both R (f c x) (g d y)) ->
  forall l r, Forall2 T l r -> forall x y, R x y -> both R (foldM f l x) (foldM g r y).
Proof. intros H l r F. induction F as [|c d l r Hcd F IH]; intros x y Hxy; cbn [foldM]; [now apply both_ok|]. apply (both_bind R); [auto|]. intros; apply IH; assumption. Qed.

(** ** buffers *)
Definition alike (b c : Buffer) : Prop := b_end b = b_end c /\ length (b_arr b) = length (b_arr c).

Lemma alike_new n : alike (buf_new n) (buf_new n).
Proof. split; reflexivity. Qed.
Lemma alike_clear b c : alike b c -> buf_clear b = buf_clear c.
Proof. intros [_ H]. unfold buf_clear. now rewrite H. Qed.
Lemma alike_span b c : alike b c -> length (buf_span b) = length (buf_span c).
Proof. intros [H1 H2]. unfold buf_span. rewrite !firstn_length. congruence. Qed.
Lemma set_alike b c v w i : length (b_arr b) = length (b_arr c) -> both (fun l r => length l = length r) (aset (b_arr b) i v) (aset (b_arr c) i w).
Proof.
  intros H. unfold aset. rewrite <- H. destruct (Nat.ltb i (length (b_arr b))); [|apply both_fail]. apply both_ok. now rewrite !upd_length.
Qed.
Lemma put_alike v w b c : alike b c -> both alike (buf_put v b) (buf_put w c).
Proof.
  intros [H1 H2]. unfold buf_put. rewrite H1. eapply both_bind; [apply set_alike, H2|]. intros l r H. apply both_ok. split; [reflexivity|exact H].
Qed.
Lemma fill_alike dbg v w n b c : alike b c -> both alike (buf_fill dbg v n b) (buf_fill dbg w n c).
Proof. intros H. unfold buf_fill. apply both_any. intros _ _. apply both_for; [|exact H]. intros; now apply put_alike. Qed.
Lemma same_length {A} (l r : list A) : length l = length r -> Forall2 (fun _ _ => True) l r.
Proof. revert r; induction l as [|x l IH]; intros [|y r] H; try discriminate; constructor; auto. Qed.
Lemma push_alike dbg l r b c : length l = length r -> alike b c -> both alike (buf_push_back dbg l b) (buf_push_back dbg r c).
Proof. intros L H. unfold buf_push_back. eapply both_fold; [|apply same_length, L|exact H]. intros v w x y _ K. now apply fill_alike. Qed.
Lemma range_alike dbg cap l r : length l = length r -> both alike (buf_of_range dbg cap l) (buf_of_range dbg cap r).
Proof. intros L. apply (push_alike dbg l r _ _ L (alike_new cap)). Qed.
Lemma from_end_alike k i v w b c : alike b c -> both alike (buf_set_from_end k i v b) (buf_set_from_end k i w c).
Proof.
  intros [H1 H2]. unfold buf_set_from_end. rewrite H1. destruct (_ <? _); [apply both_fail|].
  eapply both_bind; [apply set_alike, H2|]. intros l r H. apply both_ok. split; [reflexivity|exact H].
Qed.

(** ** addData *)
Section Add.
  Context {St T : Type}.
  Variables (B cap : nat) (dbg : bool) (impl : list N -> St -> res St) (pi : St -> T).
  Hypothesis Himpl : forall d e s t, length d = length e -> pi s = pi t -> both (fun s t => pi s = pi t) (impl d s) (impl e t).
  Definition level (o p : Buffer * St) : Prop := alike (fst o) (fst p) /\ pi (snd o) = pi (snd p).

  Lemma tail_level d e b c s t : length d = length e -> alike b c -> pi s = pi t ->
    both level (addData_tail St B cap dbg impl d b s) (addData_tail St B cap dbg impl e c t).
  Proof using Himpl.
    intros L H K. unfold addData_tail. rewrite L. destruct (length e <? B).
    - eapply both_bind; [apply range_alike, L|]. intros x y Hxy. apply both_ok. now split.
    - set (n := length e - length e mod B). eapply (both_bind (fun x y => length x = length y)).
      + unfold span_first. rewrite L. destruct (n <=? length e); [|apply both_fail]. apply both_ok. now rewrite !firstn_length, L.
      + intros x y Hxy. eapply both_bind; [apply Himpl; eassumption|]. intros s' t' Hst. destruct (n <? length e).
        * eapply both_bind; [apply range_alike; now rewrite !skipn_length, L|]. intros x' y' Hxy'. apply both_ok. now split.
        * apply both_ok. now split.
  Qed.
  Lemma add_level d e o p : length d = length e -> level o p -> both level (addData St B cap dbg impl d o) (addData St B cap dbg impl e p).
  Proof using Himpl.
    destruct o as [b s], p as [c t]. cbn [fst snd]. intros L [H K]. cbn [fst snd] in H, K. pose proof H as [H1 H2]. unfold addData, buf_empty, buf_size.
    rewrite H1, L. destruct (negb (b_end c =? 0)); [|now apply tail_level].
    set (n := if b_end c <=? B then _ else _). eapply both_bind; [apply push_alike; [now rewrite !firstn_length, L|exact H]|].
    intros x y Hxy. pose proof Hxy as [E1 E2]. rewrite E1. destruct (b_end y <? B); [apply both_ok; now split|].
    eapply both_bind; [apply Himpl; [now apply alike_span|exact K]|]. intros s' t' Hst. rewrite (alike_clear x y Hxy).
    eapply (both_bind (fun x y => length x = length y)).
    - unfold span_subspan. rewrite L. destruct (n <=? length e); [|apply both_fail]. apply both_ok. now rewrite !skipn_length, L.
    - intros u v Huv. apply tail_level; [exact Huv|split; reflexivity|exact Hst].
  Qed.

  Lemma tail2_level d e s t : length d = length e -> pi s = pi t -> both level (Blake2.addData_tail St B dbg impl d s) (Blake2.addData_tail St B dbg impl e t).
  Proof using Himpl.
    intros L K. unfold Blake2.addData_tail. rewrite L. set (r := if negb _ then _ else _). destruct (r <=? length e); [|apply both_fail].
    eapply (both_bind (fun x y => length x = length y)).
    - unfold span_first. rewrite L. destruct (_ <=? length e); [|apply both_fail]. apply both_ok. now rewrite !firstn_length, L.
    - intros x y Hxy. eapply both_bind; [apply Himpl; eassumption|]. intros s' t' Hst.
      eapply both_bind; [apply range_alike; now rewrite !skipn_length, L|]. intros x' y' Hxy'. apply both_ok. now split.
  Qed.
  Lemma add2_level fuel : forall d e o p, length d = length e -> level o p -> both level (Blake2.addData_rec St B dbg impl fuel d o) (Blake2.addData_rec St B dbg impl fuel e p).
  Proof using Himpl.
    induction fuel as [|fuel IH]; intros d e [b s] [c t] L Hl; cbn [Blake2.addData_rec]; [apply both_fail|].
    destruct d as [|d0 d], e as [|e0 e]; try discriminate L; [now apply both_ok|]. destruct Hl as [H K]. cbn [fst snd] in H, K. pose proof H as [H1 H2]. unfold buf_empty, buf_size.
    rewrite H1, L. generalize dependent (d0 :: d). generalize dependent (e0 :: e). clear d0 e0 d e. intros e d L. destruct (b_end c =? B).
    - eapply both_bind; [apply Himpl; [now apply alike_span|exact K]|]. intros s' t' Hst. now apply tail2_level.
    - destruct (negb (b_end c =? 0)); [|now apply tail2_level].
      eapply both_bind; [apply push_alike; [now rewrite !firstn_length, L|exact H]|]. intros x y Hxy.
      eapply (both_bind (fun x y => length x = length y)).
      + unfold span_subspan. rewrite L. destruct (_ <=? length e); [|apply both_fail]. apply both_ok. now rewrite !skipn_length, L.
      + intros u v Huv. apply IH; [exact Huv|now split].
  Qed.
  Lemma feed_level (add : list N -> Buffer * St -> res (Buffer * St)) o :
    (forall d e o p, length d = length e -> level o p -> both level (add d o) (add e p)) ->
    forall ds es, map (@length N) ds = map (@length N) es -> both level (foldM add ds o) (foldM add es o).
  Proof using Type.
    intros H ds es L. apply (both_fold level (fun d e : list N => length d = length e)); [intros; now apply H| |split; [split|]; reflexivity].
    revert es L. induction ds as [|d ds IH]; intros [|e es] L; try discriminate; constructor; injection L; auto.
  Qed.
End Add.
(** same buffer, not only alike *)
Definition settled {St T} (pi : St -> T) (o p : Buffer * St) : Prop := fst o = fst p /\ pi (snd o) = pi (snd p).

(** ** implementations and finalize of the classes *)
Lemma loop_level {H T} B (compress : list N -> H -> res H) (pi : H -> T) : (forall d e s t, pi s = pi t -> both (fun s t => pi s = pi t) (compress d s) (compress e t)) ->
  forall d e s t, length d = length e -> pi s = pi t -> both (fun s t => pi s = pi t) (block_loop H B compress d s) (block_loop H B compress e t).
Proof.
  intros HC d e s t L K. unfold block_loop. rewrite L. apply (both_for (fun s t => pi s = pi t)); [|exact K]. intros i x y Hxy. now apply HC.
Qed.
Section MD.
  Context {H : Type}.
  Variables (B : nat) (dbg : bool) (compress : list N -> H -> res H).
  Lemma md_impl_level d e s t : length d = length e -> md_cnt s = md_cnt t ->
    both (fun s t : MD H => md_cnt s = md_cnt t) (md_impl B dbg compress d s) (md_impl B dbg compress e t).
  Proof. intros L K. unfold md_impl. apply both_any. intros _ _. apply both_any. intros x y. apply both_ok. cbn [md_cnt]. congruence. Qed.
  Lemma md8_impl_level d e s t : length d = length e -> md8_cnt s = md8_cnt t ->
    both (fun s t : MD128 H => md8_cnt s = md8_cnt t) (md128_impl B dbg compress d s) (md128_impl B dbg compress e t).
  Proof. intros L K. unfold md128_impl. apply both_any. intros _ _. apply both_any. intros x y. apply both_ok. cbn [md8_cnt]. congruence. Qed.
  Lemma md_fin_level pb wl o p : (forall n b c, alike b c -> both alike (wl n b) (wl n c)) -> level md_cnt o p ->
    both (settled md_cnt) (md_finalize B dbg pb wl (md_impl B dbg compress) o) (md_finalize B dbg pb wl (md_impl B dbg compress) p).
  Proof.
    intros W. destruct o as [b s], p as [c t]. intros [Hl K]. cbn [fst snd] in Hl, K. unfold md_finalize, buf_size. rewrite K, (proj1 Hl).
    eapply both_bind; [apply fill_alike, Hl|]. intros x y Hxy. rewrite (proj1 Hxy). eapply both_bind; [apply fill_alike, Hxy|]. intros x' y' Hxy'.
    eapply both_bind; [apply W, Hxy'|]. intros u v Huv. eapply both_bind; [apply md_impl_level; [now apply alike_span|reflexivity]|].
    intros s' t' Hst. apply both_ok. split; [now apply alike_clear|exact Hst].
  Qed.
  Lemma len128_level n m b c : alike b c -> both alike (write_len_be128 n b) (write_len_be128 m c).
  Proof.
    intros Hbc. unfold write_len_be128. apply both_for; [|exact Hbc]. intros i x y Hxy. eapply both_bind; [apply from_end_alike, Hxy|].
    intros x' y' Hxy'. apply from_end_alike, Hxy'.
  Qed.
  Lemma md8_fin_level r o p : level md8_cnt o p ->
    both (settled md8_cnt) (md128_finalize B r dbg (md128_impl B dbg compress) o) (md128_finalize B r dbg (md128_impl B dbg compress) p).
  Proof.
    destruct o as [b s], p as [c t]. intros [Hl K]. cbn [fst snd] in Hl, K. unfold md128_finalize, buf_size. rewrite K, (proj1 Hl).
    eapply both_bind; [apply fill_alike, Hl|]. intros x y Hxy. rewrite (proj1 Hxy). eapply both_bind; [apply fill_alike, Hxy|]. intros x' y' Hxy'.
    eapply both_bind; [apply len128_level, Hxy'|]. intros u v Huv. eapply both_bind; [apply md8_impl_level; [now apply alike_span|reflexivity]|].
    intros s' t' Hst. apply both_ok. split; [now apply alike_clear|exact Hst].
  Qed.
End MD.
Lemma len_be_level n b c : alike b c -> both alike (write_len_be n b) (write_len_be n c).
Proof.
  intros Hbc. unfold write_len_be. apply both_for; [|exact Hbc]. intros i x y Hxy. eapply both_bind; [apply from_end_alike, Hxy|].
  intros x' y' Hxy'. apply from_end_alike, Hxy'.
Qed.
Lemma len_le_level n b c : alike b c -> both alike (write_len_le n b) (write_len_le n c).
Proof.
  intros Hbc. unfold write_len_le. apply both_for; [|exact Hbc]. intros i x y Hxy. eapply both_bind; [apply from_end_alike, Hxy|].
  intros x' y' Hxy'. apply from_end_alike, Hxy'.
Qed.
Section Blake.
  Variables (w : N) (nb : nat) (r1 r2 r3 r4 : N) (tbl : list N) (F : Type) (calls : list (Call.call F)) (K : Counter).
  Variables (narrow lastbit dbg : bool).
  Notation impl1 := (Blake1.impl w nb r1 r2 r3 r4 tbl F calls K narrow dbg).
  Notation impl2 := (Blake2.impl w nb r1 r2 r3 r4 tbl F calls K dbg).
  Lemma blake1_impl_level p d e (s t : ctr K * list N) : length d = length e -> fst s = fst t ->
    both (fun s t => fst s = fst t) (impl1 p d s) (impl1 p e t).
  Proof.
    intros L E. unfold Blake1.impl. apply both_any. intros _ _. apply loop_level; [|exact L|exact E]. clear. intros d e [c h] [c' h'] E. cbn [fst] in E. subst c'.
    unfold Blake1.compress. apply both_any. intros hs hs'. apply both_any. intros cs cs'. apply both_any. intros v v'. apply both_any. intros u u'. apply both_any. intros x y.
    now apply both_ok.
  Qed.
  Lemma blake2_impl_level f p d e (s t : ctr K * list N) : length d = length e -> fst s = fst t ->
    both (fun s t => fst s = fst t) (impl2 f p d s) (impl2 f p e t).
  Proof.
    intros L E. unfold Blake2.impl. apply both_any. intros _ _. apply loop_level; [|exact L|exact E]. clear. intros d e [c h] [c' h'] E. cbn [fst] in E. subst c'.
    unfold Blake2.compress. do 8 (apply both_any; intros ? ?). now apply both_ok.
  Qed.
  Lemma blake1_fin_level o p : level fst o p ->
    both (settled fst) (Blake1.finalize w nb r1 r2 r3 r4 tbl F calls K narrow lastbit dbg o) (Blake1.finalize w nb r1 r2 r3 r4 tbl F calls K narrow lastbit dbg p).
  Proof.
    destruct o as [b s], p as [c t]. intros [Hl E]. cbn [fst snd] in Hl, E. unfold Blake1.finalize, buf_size. rewrite E, (proj1 Hl).
    eapply both_bind; [apply fill_alike, Hl|]. intros x y Hxy. rewrite (proj1 Hxy). eapply both_bind; [apply fill_alike, Hxy|]. intros x' y' Hxy'.
    eapply (both_bind alike).
    { unfold Blake1.set_lastbit. destruct lastbit; [|now apply both_ok]. apply both_any. intros q q'. apply from_end_alike, Hxy'. }
    intros b1 c1 H1. eapply (both_bind alike).
    { unfold Blake1.write_len. apply both_for; [|exact H1]. intros i u v Huv. eapply both_bind; [apply from_end_alike, Huv|].
      intros u' v' Huv'. apply from_end_alike, Huv'. }
    intros u v Huv. eapply both_bind; [apply blake1_impl_level; [now apply alike_span|exact E]|].
    intros s' t' Hst. apply both_ok. split; [now apply alike_clear|exact Hst].
  Qed.
  Lemma blake2_fin_level o p : level fst o p ->
    both (settled fst) (Blake2.finalize w nb r1 r2 r3 r4 tbl F calls K dbg o) (Blake2.finalize w nb r1 r2 r3 r4 tbl F calls K dbg p).
  Proof.
    destruct o as [b s], p as [c t]. intros [Hl E]. cbn [fst snd] in Hl, E. unfold Blake2.finalize, buf_size. rewrite (proj1 Hl).
    eapply both_bind; [apply fill_alike, Hl|]. intros x y Hxy.
    eapply both_bind; [apply blake2_impl_level; [now apply alike_span|exact E]|].
    intros s' t' Hst. apply both_ok. split; [now apply alike_clear|exact Hst].
  Qed.
End Blake.
Section Sip.
  Variables (C D : nat) (dbg : bool).
  Definition sip (s : SipHash.St) : N * N * N := (SipHash.s_cnt s, SipHash.s_k0 s, SipHash.s_k1 s).
  Lemma sip_impl_level d e s t : length d = length e -> sip s = sip t ->
    both (fun s t => sip s = sip t) (SipHash.addDataImpl C dbg d s) (SipHash.addDataImpl C dbg e t).
  Proof.
    intros L E. injection E as E1 E2 E3. unfold SipHash.addDataImpl. apply both_any. intros _ _. apply both_any. intros x y. apply both_ok. unfold sip. cbn. congruence.
  Qed.
  Lemma sip_fin_level o p : level sip o p -> both (settled sip) (SipHash.finalize C D dbg o) (SipHash.finalize C D dbg p).
  Proof.
    destruct o as [b s], p as [c t]. intros [Hl E]. cbn [fst snd] in Hl, E. injection E as E1 E2 E3. unfold SipHash.finalize, buf_size. rewrite E1, E2, E3, (proj1 Hl).
    destruct (7 <? b_end c); [apply both_fail|].
    eapply both_bind; [apply fill_alike, Hl|]. intros x y Hxy. eapply both_bind; [apply fill_alike, Hxy|]. intros x' y' Hxy'.
    eapply both_bind; [apply sip_impl_level; [now apply alike_span|reflexivity]|]. intros s' t' Hst. rewrite (alike_clear x' y' Hxy').
    destruct (SipHash.s_v s') as [u0 u1 u2 u3], (SipHash.s_v t') as [v0 v1 v2 v3]. apply both_any. intros u v. apply both_ok. split; [reflexivity|exact Hst].
  Qed.
End Sip.
Section Sponge.
  Variables (R : nat) (P : N) (dbg : bool).
  Lemma keccak_impl_level d e s t : length d = length e -> Keccak.k_len s = Keccak.k_len t ->
    both (fun s t => Keccak.k_len s = Keccak.k_len t) (Keccak.impl R dbg d s) (Keccak.impl R dbg e t).
  Proof. intros L E. unfold Keccak.impl. apply both_any. intros _ _. apply both_any. intros x y. now apply both_ok. Qed.
  Lemma squish_level n : forall k s t, Keccak.k_len s = Keccak.k_len t -> both (fun s t => Keccak.k_len s = Keccak.k_len t) (Keccak.squish R dbg n s) (Keccak.squish R dbg k t).
  Proof.
    assert (forall n s s', Keccak.squish R dbg n s = Ok s' -> Keccak.k_len s' = Keccak.k_len s) as G.
    { clear n. induction n as [|n IH]; intros s s' E; cbn [Keccak.squish] in E; [discriminate|].
      destruct (if (R <=? _)%nat then _ else _) as [h| |]; [|discriminate E|discriminate E]. rewrite bind_ok in E. cbn [Keccak.k_len] in E.
      destruct (_ <=? _)%nat; [injection E as <-; reflexivity|].
      destruct (Keccak.impl R dbg _ _) as [u| |] eqn:Eu; [|discriminate E|discriminate E]. rewrite bind_ok in E. rewrite (IH _ _ E). clear -Eu.
      unfold Keccak.impl in Eu. destruct (assert_aligned _ _ _); [|discriminate Eu|discriminate Eu]. rewrite bind_ok in Eu.
      destruct (block_loop _ _ _ _ _); [|discriminate Eu|discriminate Eu]. rewrite bind_ok in Eu. injection Eu as <-. reflexivity. }
    intros k s t E x y Ex Ey. rewrite (G _ _ _ Ex), (G _ _ _ Ey). exact E.
  Qed.
  Lemma keccak_fin_level o p : level Keccak.k_len o p -> both (settled Keccak.k_len) (Keccak.finalize R P dbg o) (Keccak.finalize R P dbg p).
  Proof.
    destruct o as [b s], p as [c t]. intros [Hl E]. cbn [fst snd] in Hl, E. unfold Keccak.finalize, buf_size.
    eapply both_bind; [apply fill_alike, Hl|]. intros x y Hxy. rewrite (proj1 Hxy). eapply both_bind; [apply fill_alike, Hxy|]. intros x' y' Hxy'.
    apply both_any. intros q q'. eapply both_bind; [apply from_end_alike, Hxy'|]. intros u v Huv.
    eapply both_bind; [apply keccak_impl_level; [now apply alike_span|exact E]|]. intros s' t' Hst. rewrite (alike_clear u v Huv).
    eapply both_bind; [apply squish_level, Hst|]. intros s1 t1 H1. apply both_ok. split; [reflexivity|exact H1].
  Qed.
End Sponge.
