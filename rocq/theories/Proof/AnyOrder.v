(** No order of calls breaks an object. *)
From Coq Require Import List NArith Arith Bool Lia ZArith ZifyNat ZifyN.
From Verif.Base Require Import Res CWord.
From Verif.Spec Require Import Words Client Merkle AnyOrder.
From Verif.Model Require Import Buffer Stream Api.
From Verif.Proof Require Import Words Streaming Blocks Api MD MD128.
From Verif.Model Require Blake2.
Import ListNotations.

(** an invariant of the objects of a class that every call preserves; [G b]: finalize() has run ([b]) since the last reset() *)
Record Robust (readable early : bool) (n : nat) (C : HashClass) (G : bool -> Obj C -> Prop) : Prop := {
  ro_new : G false (c_new C);
  ro_add : forall b x d, G b x -> span_ok d -> exists y, c_add C d x = Ok y /\ G b y;
  ro_fin : forall b x, G b x -> exists y, c_finalize C x = Ok y /\ G true y;
  ro_reset : forall b x, G b x -> G false (c_reset C x);
  ro_arr : readable = true -> forall b x, G b x ->
    exists d, c_array C x = Ok d /\ bytes_ok d /\ (early = true \/ b = true -> length d = n)
}.

Lemma robust_op r e n C G : Robust r e n C G -> forall o b x, G b x -> op_possible r e (negb (n =? 0)) o b ->
  exists y w, exec_op C o x = Ok (y, w) /\ G (finalized_by o b) y.
Proof.
  intros R o b x Hx [Ho Hr].
  assert (reads o = true -> exists d, c_array C x = Ok d /\ bytes_ok d /\ (e = true \/ b = true -> length d = n)) as HA.
  { intros E. apply (ro_arr _ _ _ _ _ R); auto. }
  destruct o; cbn [exec_op finalized_by reads] in *.
  - destruct (ro_add _ _ _ _ _ R b x d Hx Ho) as (y & -> & Hy). rewrite bind_ok. eauto.
  - destruct (ro_fin _ _ _ _ _ R b x Hx) as (y & -> & Hy). rewrite bind_ok. eauto.
  - exists (c_reset C x), None. split; [reflexivity|]. apply (ro_reset _ _ _ _ _ R b x Hx).
  - destruct (HA eq_refl) as (d & -> & _). rewrite bind_ok. eauto.
  - destruct (HA eq_refl) as (d & -> & _). rewrite bind_ok. eauto.
  - destruct (HA eq_refl) as (d & -> & Hd & L). rewrite bind_ok. destruct Ho as [Hn He]. specialize (L He).
    rewrite to_string_ok; [rewrite bind_ok; eauto|exact Hd|]. intros ->. cbn [length] in L. subst n. discriminate Hn.
  - destruct (HA eq_refl) as (d & -> & Hd & _). rewrite bind_ok, to_uint_ok, bind_ok by exact Hd. eauto.
  - destruct (HA eq_refl) as (d & -> & Hd & _). unfold std_hash. rewrite bind_ok, to_uint_ok, bind_ok by exact Hd. eauto.
Qed.

Theorem robust_exec r e n C G : Robust r e n C G -> forall p (s : nat -> bool) (st : store C), (forall i, G (s i) (st i)) ->
  possible r e (negb (n =? 0)) p s -> exists os st', exec C p st = Ok (os, st').
Proof.
  intros R. induction p as [|[i o|i j] p IH]; intros s st Hs Hp; cbn [exec possible] in *.
  - eauto.
  - destruct Hp as [Ho Hp]. destruct (robust_op _ _ _ _ _ R o (s i) (st i) (Hs i) Ho) as (y & w & E & Hy). rewrite E, bind_ok. cbn [fst snd].
    edestruct (IH (fun k => if k =? i then finalized_by o (s i) else s k) (put C st i y)) as (os & st' & E'); [|exact Hp|].
    + intros k. unfold put. destruct (k =? i); auto.
    + rewrite E', bind_ok. eauto.
  - apply (IH (fun k => if k =? i then s j else s k)); [|exact Hp]. intros k. unfold put. destruct (k =? i); auto.
Qed.

(** ** the buffer *)

(** fewer bytes than a block in the buffer, zeros behind *)
Definition held (B cap : nat) (b : Buffer) : Prop := exists r, b = canon cap r /\ bytes_ok r /\ length r < B.
Definition held2 (B : nat) (b : Buffer) : Prop := exists r, b = canon B r /\ bytes_ok r /\ length r <= B.

Lemma held_nil B cap : 0 < B -> held B cap (canon cap []).
Proof. intros HB. exists []. repeat split; [constructor|exact HB]. Qed.
Lemma held_clear B cap b : B <= cap -> held B cap b -> buf_clear b = canon cap [].
Proof. intros Hc (r & -> & _ & Hl). apply canon_clear. lia. Qed.

Section Stream.
  Context {St : Type}.
  Variables (B cap : nat) (dbg : bool) (impl : list N -> St -> res St) (I : St -> Prop).
  Hypothesis HB : 0 < B.
  Hypothesis Hcap : B <= cap.
  Hypothesis HB64 : (N.of_nat B < 2 ^ 64)%N.
  Hypothesis Himpl : forall d s, I s -> span_ok d -> aligned B d -> exists s', impl d s = Ok s' /\ I s'.

  Definition okobj (o : Buffer * St) : Prop := held B cap (fst o) /\ I (snd o).

  Lemma tail_any d s : I s -> span_ok d ->
    exists o, addData_tail St B cap dbg impl d (canon cap []) s = Ok o /\ okobj o.
  Proof.
    intros Hs Hd. unfold addData_tail. destruct (Nat.ltb_spec (length d) B) as [Hlt|Hge].
    - rewrite of_range_canon by lia. rewrite bind_ok. eexists. split; [reflexivity|]. split; [|exact Hs].
      exists d. repeat split; [apply Hd|exact Hlt].
    - assert (length d - length d mod B = whole B d) as -> by (unfold whole; pose proof (Nat.div_mod (length d) B); nia).
      assert (whole B d <= length d) as Hle by (unfold whole; pose proof (Nat.mul_div_le (length d) B); nia).
      unfold span_first. destruct (Nat.leb_spec (whole B d) (length d)); [|lia]. rewrite bind_ok.
      change (firstn (whole B d) d) with (pre B d).
      destruct (Himpl (pre B d) s Hs) as (s' & -> & Hs'); [now apply span_ok_pre|now apply pre_aligned|]. rewrite bind_ok.
      destruct (Nat.ltb_spec (whole B d) (length d)).
      + rewrite of_range_canon by (fold (rest B d); pose proof (rest_lt B d HB); lia). rewrite bind_ok. eexists. split; [reflexivity|].
        split; [|exact Hs']. exists (rest B d). repeat split; [apply bytes_ok_rest, Hd|apply rest_lt, HB].
      + eexists. split; [reflexivity|]. split; [apply held_nil, HB|exact Hs'].
  Qed.

  Lemma add_any o d : okobj o -> span_ok d -> exists o', addData St B cap dbg impl d o = Ok o' /\ okobj o'.
  Proof.
    destruct o as [b s]. intros [(r & Eb & Hr & Hl) Hs] Hd. cbn [fst snd] in *. subst b. unfold addData. rewrite canon_empty.
    destruct r as [|r0 rr]; cbn [negb]; [now apply tail_any|].
    set (r := r0 :: rr) in *. clearbody r. rewrite canon_size. destruct (Nat.leb_spec (length r) B); [|lia].
    set (len := min (B - length r) (length d)).
    assert (length (firstn len d) = len) as Hfl by (apply firstn_length_le; unfold len; lia).
    rewrite push_back_canon by (rewrite Hfl; unfold len; lia). rewrite bind_ok, canon_size, app_length, Hfl.
    assert (bytes_ok (r ++ firstn len d)) as Hfb by (apply bytes_ok_app; split; [exact Hr|apply bytes_ok_firstn, Hd]).
    destruct (Nat.ltb_spec (length r + len) B) as [Hsmall|Hbig].
    - eexists. split; [reflexivity|]. split; [|exact Hs]. exists (r ++ firstn len d). repeat split; [exact Hfb|now rewrite app_length, Hfl].
    - rewrite canon_span. assert (length (r ++ firstn len d) = B) as Hfull by (rewrite app_length, Hfl; unfold len in *; lia).
      destruct (Himpl (r ++ firstn len d) s Hs) as (s' & -> & Hs').
      { split; [exact Hfb|now rewrite Hfull]. }
      { unfold aligned. rewrite Hfull. apply Nat.mod_same. lia. }
      rewrite bind_ok, canon_clear by lia. unfold span_subspan. destruct (Nat.leb_spec len (length d)); [|unfold len in *; lia].
      rewrite bind_ok. apply tail_any; [exact Hs'|now apply span_ok_skipn].
  Qed.
End Stream.

(** ** the classes with a 64-bit counter *)
Section MD.
  Context {H : Type}.
  Variables (B : nat) (dbg : bool) (padbyte : N) (n : nat) (readable : bool).
  Variables (write_len : N -> Buffer -> res Buffer) (enc : N -> list N).
  Variables (compress : list N -> H -> res H) (iv : H) (arr : H -> res (list N)).
  Variables (cf : H -> list N -> H) (inv : H -> Prop).
  Hypothesis HB : 8 <= B.
  Hypothesis H64 : (N.of_nat (2 * B) < 2 ^ 64)%N.
  Hypothesis Hpb : (padbyte < 256)%N.
  Hypothesis Hwrite : forall cap x bits, length x + 8 <= cap ->
    write_len bits (canon cap (x ++ repeat 0%N 8)) = Ok (canon cap (x ++ enc bits)).
  Hypothesis Henc_len : forall x, length (enc x) = 8.
  Hypothesis Henc_ok : forall x, bytes_ok (enc x).
  Hypothesis Hiv : inv iv.
  Hypothesis Hc : forall blk tl h, inv h -> length blk = B -> bytes_ok blk ->
    compress (blk ++ tl) h = Ok (cf h blk) /\ inv (cf h blk).
  Hypothesis Harr : readable = true -> forall h, inv h -> exists d, arr h = Ok d /\ bytes_ok d /\ length d = n.

  Let HB0 : 0 < B.
  Proof. lia. Qed.
  Let I (s : MD H) : Prop := inv (md_h s).

  Lemma md_impl_any d s : I s -> span_ok d -> aligned B d -> exists s', md_impl B dbg compress d s = Ok s' /\ I s'.
  Proof.
    intros Hs [Hd _] Ha. unfold md_impl. rewrite assert_ok, bind_ok by exact Ha.
    destruct (block_loop_ok B compress cf inv HB0 Hc d Ha Hd (md_h s) Hs) as [-> Hi]. rewrite bind_ok.
    eexists. split; [reflexivity|exact Hi].
  Qed.

  Lemma md_finalize_any o : okobj B (2 * B) I o ->
    exists o', md_finalize B dbg padbyte write_len (md_impl B dbg compress) o = Ok o' /\ okobj B (2 * B) I o'.
  Proof.
    destruct o as [b s]. intros [(r & Eb & Hr & Hl) Hs]. cbn [fst snd] in *. subst b. unfold md_finalize.
    assert (rest B r = r) as Er by (unfold rest, whole; rewrite Nat.div_small by exact Hl; reflexivity).
    pose proof (zeros_rest B 8 r HB0 HB) as Hz. rewrite Er in Hz. pose proof (zeros_le B 8 (length r) HB0) as Hzl.
    assert (length r + 1 + zeros B 8 (length r) + 8 <= 2 * B) as Htot.
    { pose proof (Nat.mod_le (2 * B - (S (length r) + 8)) B ltac:(lia)). lia. }
    rewrite canon_size. rewrite fill_canon by lia. rewrite bind_ok. cbn [repeat]. rewrite canon_size, app_length. cbn [length].
    rewrite pad_len_spec by lia. rewrite Nat.add_1_r, <- Hz.
    rewrite fill_canon by (rewrite ?app_length; cbn [length]; lia). rewrite bind_ok, repeat_app, app_assoc.
    rewrite Hwrite by (rewrite !app_length, repeat_length; cbn [length]; lia). rewrite bind_ok, canon_span.
    set (e := enc _). assert (length e = 8) as He by apply Henc_len. assert (bytes_ok e) as Heb by apply Henc_ok. clearbody e.
    assert (((r ++ [padbyte]) ++ repeat 0%N (zeros B 8 (length r))) ++ e = pad B 8 padbyte (fun _ => e) r) as ->
      by (unfold pad; now rewrite <- !app_assoc).
    assert (length (pad B 8 padbyte (fun _ => e) r) <= 2 * B) as Lp
      by (unfold pad; rewrite !app_length, repeat_length, He; cbn [length]; lia).
    destruct (md_impl_any (pad B 8 padbyte (fun _ => e) r) (mkMD (uadd 64 (md_cnt s) (N.of_nat (length r))) (md_h s))) as (s' & -> & Hs').
    - exact Hs.
    - split; [apply pad_bytes; auto|lia].
    - apply pad_aligned; auto.
    - rewrite bind_ok, canon_clear by exact Lp. eexists. split; [reflexivity|]. split; [apply held_nil, HB0|exact Hs'].
  Qed.

  Theorem md_robust : exists G, Robust readable true n (md_class B dbg padbyte write_len compress iv arr) G.
  Proof.
    exists (fun _ => okobj B (2 * B) I). constructor; cbn [md_class c_new c_add c_finalize c_reset c_array Obj].
    - split; [|exact Hiv]. rewrite <- canon_nil. apply held_nil, HB0.
    - intros _ x d Hx Hd. apply (add_any B (2 * B) dbg _ I); auto; [lia..|apply md_impl_any].
    - intros _ x Hx. now apply md_finalize_any.
    - intros _ x [Hx _]. split; [|exact Hiv]. cbn [fst]. rewrite (held_clear B (2 * B)) by (lia || exact Hx). apply held_nil, HB0.
    - intros Hr b x [_ Hx]. destruct (Harr Hr _ Hx) as (d & -> & Hd & Ld). exists d. auto.
  Qed.
End MD.

(** ** the classes with a 128-bit counter *)
Section MD128.
  Context {H : Type}.
  Variables (B reserve : nat) (dbg : bool) (n : nat).
  Variables (compress : list N -> H -> res H) (iv : H) (arr : H -> res (list N)).
  Variables (cf : H -> list N -> H) (inv : H -> Prop).
  Hypothesis HB : reserve <= B.
  Hypothesis Hrs : 16 <= reserve.
  Hypothesis H64 : (N.of_nat (2 * B) < 2 ^ 64)%N.
  Hypothesis Hiv : inv iv.
  Hypothesis Hc : forall blk tl h, inv h -> length blk = B -> bytes_ok blk ->
    compress (blk ++ tl) h = Ok (cf h blk) /\ inv (cf h blk).
  Hypothesis Harr : forall h, inv h -> exists d, arr h = Ok d /\ bytes_ok d /\ length d = n.

  Let HB0 : 0 < B.
  Proof. lia. Qed.
  Let I (s : MD128 H) : Prop := md8_inv inv s.

  Lemma md8_impl_any d s : I s -> span_ok d -> aligned B d -> exists s', md128_impl B dbg compress d s = Ok s' /\ I s'.
  Proof.
    intros [Hs Hu] [Hd Hl] Ha. unfold md128_impl. rewrite assert_ok, bind_ok by exact Ha.
    destruct (block_loop_ok B compress cf inv HB0 Hc d Ha Hd (md8_h s) Hs) as [-> Hi]. rewrite bind_ok.
    eexists. split; [reflexivity|]. split; [exact Hi|]. cbn [md8_cnt]. rewrite u128_add_ok by assumption. apply u128_of_ok.
  Qed.

  Lemma md8_finalize_any o : okobj B (2 * B) I o ->
    exists o', md128_finalize B reserve dbg (md128_impl B dbg compress) o = Ok o' /\ okobj B (2 * B) I o'.
  Proof.
    destruct o as [b s]. intros [(r & Eb & Hr & Hl) [Hs Hu]]. cbn [fst snd] in *. subst b. unfold md128_finalize.
    assert (rest B r = r) as Er by (unfold rest, whole; rewrite Nat.div_small by exact Hl; reflexivity).
    pose proof (zeros_rest B reserve r HB0 HB) as Hz. rewrite Er in Hz. pose proof (zeros_le B reserve (length r) HB0) as Hzl.
    assert (length r + 1 + zeros B reserve (length r) + reserve <= 2 * B) as Htot.
    { pose proof (Nat.mod_le (2 * B - (S (length r) + reserve)) B ltac:(lia)). lia. }
    rewrite canon_size. rewrite fill_canon by lia. rewrite bind_ok. cbn [repeat]. rewrite canon_size, app_length. cbn [length].
    rewrite pad_len_spec by lia. rewrite Nat.add_1_r, <- Hz.
    rewrite fill_canon by (rewrite ?app_length; cbn [length]; lia). rewrite bind_ok.
    rewrite u128_add_ok by (try exact Hu; lia). rewrite u128_mul8_ok. set (v := (8 * _)%N). clearbody v.
    replace (zeros B reserve (length r) + reserve) with (zeros B reserve (length r) + (reserve - 16) + 16) by lia.
    rewrite repeat_app, app_assoc.
    rewrite write_len_be128_ok by (rewrite !app_length, !repeat_length; cbn [length]; lia). rewrite bind_ok, canon_span, repeat_app.
    set (e := repeat 0%N (reserve - 16) ++ be_bytes 16 v).
    assert (length e = reserve) as He by (unfold e; rewrite app_length, repeat_length, be_bytes_length; lia).
    assert (bytes_ok e) as Heb by (apply bytes_ok_app; split; [apply bytes_ok_repeat; reflexivity|apply be_bytes_ok]).
    assert (((r ++ [128%N]) ++ repeat 0%N (zeros B reserve (length r)) ++ repeat 0%N (reserve - 16)) ++ be_bytes 16 v = pad B reserve 128 (fun _ => e) r) as ->
      by (unfold pad, e; now rewrite <- !app_assoc).
    clearbody e.
    assert (length (pad B reserve 128 (fun _ => e) r) <= 2 * B) as Lp
      by (unfold pad; rewrite !app_length, repeat_length, He; cbn [length]; lia).
    destruct (md8_impl_any (pad B reserve 128 (fun _ => e) r) (mkMD128 (u128_of v) (md8_h s))) as (s' & -> & Hs').
    - split; [exact Hs|apply u128_of_ok].
    - split; [apply pad_bytes; auto; reflexivity|lia].
    - apply pad_aligned; auto.
    - rewrite bind_ok, canon_clear by exact Lp. eexists. split; [reflexivity|]. split; [apply held_nil, HB0|exact Hs'].
  Qed.

  Theorem md8_robust : exists G, Robust true true n (md128_class B reserve dbg compress iv arr) G.
  Proof.
    assert (I (mkMD128 u128_zero iv)) as H0 by (split; [exact Hiv|split; reflexivity]).
    exists (fun _ => okobj B (2 * B) I). constructor; cbn [md128_class c_new c_add c_finalize c_reset c_array Obj].
    - split; [|exact H0]. rewrite <- canon_nil. apply held_nil, HB0.
    - intros _ x d Hx Hd. apply (add_any B (2 * B) dbg _ I); auto; [lia..|apply md8_impl_any].
    - intros _ x Hx. now apply md8_finalize_any.
    - intros _ x [Hx _]. split; [|exact H0]. cbn [fst]. rewrite (held_clear B (2 * B)) by (lia || exact Hx). apply held_nil, HB0.
    - intros Hr b x [_ [Hx _]]. destruct (Harr _ Hx) as (d & -> & Hd & Ld). exists d. auto.
  Qed.
End MD128.
