(** Every class does work proportional to the data and the digest. *)
From Coq Require Import List NArith ZArith Arith Bool Lia.
From Verif.Base Require Import CWord.
From Verif.Base Require Res.
From Verif.Base Require Import Leak.
From Verif.Spec Require Import Client Work.
From Verif.Model Require Import Buffer Api Call Library LeakLibrary.
From Verif.Model Require Stream Counter Keccak Md2 Blake1 Blake2 Has160 Md4 Md5 Ripemd Sha1 Sm3 SipHash.
From Verif.Model.Gen Require Md4Calls Md5Calls Has160Calls Sha1Calls Sm3Calls Ripemd128Calls Ripemd160Calls Ripemd256Calls Ripemd320Calls.
From Verif.Model.Leak Require Import LkBuffer LkStream.
From Verif.Model.Leak Require LkCall LkBlakeMix LkBlake1 LkBlake2 LkCrc32 LkFnv LkHas160 LkKeccak LkMd2 LkMd4 LkMd5 LkRipemd
  LkSha1 LkSha2 LkSipHash LkSm3 LkTiger LkWhirlpool.
From Verif.Proof Require Import LeakWork.
Import ListNotations.
Local Open Scope nat_scope.

(** k per byte and call, and k per byte of the digest for finalize() and the read-outs *)
Definition linear (C : HashClass) (L : Leaky (Obj C)) (k d : nat) : Prop :=
  exists J : Obj C -> Prop, J (c_new C) /\ (forall x, J x -> J (c_reset C x)) /\
    (forall e x, J x -> lim (k * S (length e)) (l_add L e x) /\ post J (l_add L e x)) /\
    (forall x, J x -> lim (k * S d) (l_finalize L x) /\ post J (l_finalize L x)) /\
    (forall x, J x -> lim (k * S d) (l_array L x) /\ post (fun r => length r <= d) (l_array L x)).
Lemma linear_weak C L k q d : k <= q -> linear C L k d -> linear C L q d.
Proof.
  intros Hk (J & Hn & Hr & Ha & Hf & Hx). exists J. split; [exact Hn|]. split; [exact Hr|]. split; [|split].
  - intros e x Jx. destruct (Ha e x Jx) as [K1 K2]. split; [|exact K2]. eapply lim_weak; [exact K1|]. now apply Nat.mul_le_mono_r.
  - intros x Jx. destruct (Hf x Jx) as [K1 K2]. split; [|exact K2]. eapply lim_weak; [exact K1|]. now apply Nat.mul_le_mono_r.
  - intros x Jx. destruct (Hx x Jx) as [K1 K2]. split; [|exact K2]. eapply lim_weak; [exact K1|]. now apply Nat.mul_le_mono_r.
Qed.

Section Runs.
  Variables (C : HashClass) (L : Leaky (Obj C)) (k d : nat) (J : Obj C -> Prop).
  Hypothesis Hr : forall x, J x -> J (c_reset C x).
  Hypothesis Ha : forall e x, J x -> lim (k * S (length e)) (l_add L e x) /\ post J (l_add L e x).
  Hypothesis Hf : forall x, J x -> lim (k * S d) (l_finalize L x) /\ post J (l_finalize L x).
  Hypothesis Hx : forall x, J x -> lim (k * S d) (l_array L x) /\ post (fun r => length r <= d) (l_array L x).

  Definition op_cost (o : op) : nat := match o with AddData e => k * S (length e) | _ => (k + 4) * S d end.
  Lemma op_lim o x : J x -> lim (op_cost o) (run_op C L o x) /\ post (fun r => J (fst r)) (run_op C L o x).
  Proof using Hr Ha Hf Hx.
    intros Hs. destruct (Hx x Hs) as [X1 X2].
    assert (forall A (f : list N -> res A) n, n <= 4 * S d -> (forall r, length r <= d -> lim n (f r)) -> lim ((k + 4) * S d) (bind (l_array L x) f)) as T.
    { intros A f n Hle Hl. eapply lim_weak; [eapply (lim_post (fun r => length r <= d)); [exact X1|exact X2|exact Hl]|lia]. }
    destruct o as [e| | | | | |n|]; cbn [run_op op_cost].
    - destruct (Ha e x Hs) as [A1 A2]. split; [eapply lim_weak; [eapply lim_bind; [exact A1|intros; apply lim_ok]|lia]|].
      apply (post_bind J); [exact A2|]. intros y Hy. apply post_ok, Hy.
    - destruct (Hf x Hs) as [A1 A2]. split; [eapply lim_weak; [eapply lim_bind; [exact A1|intros; apply lim_ok]|lia]|].
      apply (post_bind J); [exact A2|]. intros y Hy. apply post_ok, Hy.
    - split; [eapply lim_weak; [apply lim_ok|lia]|apply post_ok, Hr, Hs].
    - split; [apply (T _ _ 0); [lia|intros; apply lim_ok]|]. apply post_any. intros. apply post_ok, Hs.
    - split; [apply (T _ _ 0); [lia|intros; apply lim_ok]|]. apply post_any. intros. apply post_ok, Hs.
    - split; [apply (T _ _ (d * 3 + 1)); [lia|]|].
      + intros r Hl. eapply lim_weak; [eapply lim_bind; [apply lim_string|intros; apply lim_ok]|lia].
      + apply post_any. intros. apply post_any. intros. apply post_ok, Hs.
    - split; [apply (T _ _ (d * 2 + 1)); [lia|]|].
      + intros r Hl. eapply lim_weak; [eapply lim_bind; [apply lim_uint|intros; apply lim_ok]|lia].
      + apply post_any. intros. apply post_any. intros. apply post_ok, Hs.
    - split; [apply (T _ _ (d * 2 + 1)); [lia|]|].
      + intros r Hl. unfold std_hash. eapply lim_weak; [eapply lim_bind; [apply lim_uint|intros; apply lim_ok]|lia].
      + apply post_any. intros. apply post_any. intros. apply post_ok, Hs.
  Qed.
  Lemma put_inv s i x : (forall j, J (s j)) -> J x -> forall j, J (put C s i x j).
  Proof. intros H K j. unfold put. destruct (j =? i); [exact K|apply H]. Qed.
  Lemma run_lim p : forall s, (forall i, J (s i)) -> lim ((k + 4) * S d * program_size p) (run C L p s) /\ post (fun r => forall i, J (snd r i)) (run C L p s).
  Proof using Hr Ha Hf Hx.
    induction p as [|[i o|i j] p IH]; intros s Hs; cbn [run]; [split; [eapply lim_weak; [apply lim_ok|lia]|apply post_ok, Hs]| |].
    - destruct (op_lim o (s i) (Hs i)) as [K1 K2]. split.
      + assert (program_size (On i o :: p) = cmd_size (On i o) + program_size p) as -> by reflexivity.
        rewrite Nat.mul_add_distr_l. apply (lim_post (fun r => J (fst r))); [|exact K2|].
        * eapply lim_weak; [exact K1|]. destruct o; cbn [op_cost cmd_size]; nia.
        * intros r Jr. rewrite <- (Nat.add_0_r (_ * program_size p)). apply lim_bind; [|intros; apply lim_ok]. apply IH. now apply put_inv.
      + apply (post_bind (fun r => J (fst r))); [exact K2|]. intros r Jr. apply (post_bind (fun t => forall q, J (snd t q))); [apply IH; now apply put_inv|].
        intros t Ht. apply post_ok. exact Ht.
    - destruct (IH (put C s i (s j))) as [K1 K2]; [apply put_inv; auto|]. split; [|exact K2]. eapply lim_weak; [exact K1|].
      apply Nat.mul_le_mono_l. change (program_size (CopyTo i j :: p)) with (1 + program_size p). lia.
  Qed.
End Runs.

(** ** classes from their compression functions *)
Definition yes {A} (_ : A) : Prop := True.
Lemma post_yes {A} (x : res A) : post yes x. Proof. intros a _. exact I. Qed.
Lemma pad_le B r n : B <> 0 -> Stream.pad_len B r n <= B.
Proof. intros H. unfold Stream.pad_len. pose proof (N.mod_lt (usub 64 (2 * N.of_nat B) (N.of_nat n + N.of_nat r)) (N.of_nat B) ltac:(lia)). lia. Qed.
Lemma lim_loop {H} B cc (compress : list N -> H -> res H) d h : (forall m h, lim cc (compress m h)) -> lim ((cc + 2) * S (length d)) (block_loop H B compress d h).
Proof.
  intros K. unfold block_loop. eapply lim_weak; [apply (lim_for cc); intros; apply K|].
  assert (length d / B <= length d) as L. { destruct B as [|B]; [cbn; lia|]. apply Nat.div_le_upper_bound; nia. }
  nia.
Qed.
Lemma lim_aligned B dbg d : lim 1 (assert_aligned B dbg d). Proof. unfold assert_aligned. eapply lim_weak; [lim|lia]. Qed.

Lemma lim_len_be bits b : lim 32 (write_len_be bits b).
Proof. unfold write_len_be. eapply lim_weak; [apply (lim_for 4); intros|lia]. eapply (lim_bind 2 2); intros; apply lim_setend. Qed.
Lemma lim_len_le bits b : lim 32 (write_len_le bits b).
Proof. unfold write_len_le. eapply lim_weak; [apply (lim_for 4); intros|lia]. eapply (lim_bind 2 2); intros; apply lim_setend. Qed.
Lemma lim_len_128 bits b : lim 64 (write_len_be128 bits b).
Proof. unfold write_len_be128. eapply lim_weak; [apply (lim_for 4); intros|lia]. eapply (lim_bind 2 2); intros; apply lim_setend. Qed.
Lemma post_len_be n bits b : cap n b -> post (cap n) (write_len_be bits b).
Proof. intros H. unfold write_len_be. apply post_for; [|exact H]. intros. apply (post_bind (cap n)); intros; now apply post_setend. Qed.
Lemma post_len_le n bits b : cap n b -> post (cap n) (write_len_le bits b).
Proof. intros H. unfold write_len_le. apply post_for; [|exact H]. intros. apply (post_bind (cap n)); intros; now apply post_setend. Qed.
Lemma post_len_128 n bits b : cap n b -> post (cap n) (write_len_be128 bits b).
Proof. intros H. unfold write_len_be128. apply post_for; [|exact H]. intros. apply (post_bind (cap n)); intros; now apply post_setend. Qed.

Definition md_k (cc B r : nat) : nat := (cc + 3) * (2 * B + 3) + 2 * B + 2 * r + 200.
Section MD.
  Context {H : Type} (B : nat) (dbg : bool) (compress : list N -> H -> res H) (arr : H -> res (list N)) (cc size : nat).
  Hypothesis HB : B <> 0.
  Hypothesis Hc : forall m h, lim cc (compress m h).
  Hypothesis Hx : forall h, lim (4 * S size) (arr h) /\ post (fun r => length r = size) (arr h).

  Lemma md_impl_lim d s : yes s -> lim ((cc + 3) * S (length d)) (md_impl B dbg compress d s) /\ post yes (md_impl B dbg compress d s).
  Proof using HB Hc.
    intros _. split; [|apply post_yes]. unfold md_impl. eapply lim_weak; [eapply lim_bind; [apply lim_aligned|intros]; eapply lim_bind; [apply (lim_loop B cc), Hc|intros; apply lim_ok]|nia].
  Qed.
  Lemma md128_impl_lim d s : yes s -> lim ((cc + 3) * S (length d)) (md128_impl B dbg compress d s) /\ post yes (md128_impl B dbg compress d s).
  Proof using HB Hc.
    intros _. split; [|apply post_yes]. unfold md128_impl. eapply lim_weak; [eapply lim_bind; [apply lim_aligned|intros]; eapply lim_bind; [apply (lim_loop B cc), Hc|intros; apply lim_ok]|nia].
  Qed.

  Lemma md_linear pad wl wl' compress' iv arr' : (forall bits b, lim 32 (wl bits b)) -> (forall n bits b, cap n b -> post (cap n) (wl bits b)) ->
    linear (md_class B dbg pad wl' compress' iv arr') (md_leaky B dbg pad wl compress arr) (md_k cc B 8) size.
  Proof using HB Hc Hx.
    intros Hl Hp. exists (inv yes (2 * B)). split; [split; [apply cap_new|exact I]|]. split; [intros x [Hb _]; split; [apply cap_clear, Hb|exact I]|].
    split; [|split].
    - intros e x Ix. split; [|apply (post_add yes B (2 * B) dbg _ _ md_impl_lim), Ix].
      eapply lim_weak; [apply (lim_add yes B (2 * B) dbg _ (cc + 3) md_impl_lim e x Ix)|]. apply Nat.mul_le_mono_r. unfold md_k. lia.
    - intros [b s] [Hb _]. cbn [fst snd] in Hb. cbn [md_leaky l_finalize]. unfold md_finalize. cbv zeta. split.
      + apply (lim_weak (5 + ((2 * (B + 8) + 3) + (32 + ((cc + 3) * S (2 * B) + 0))))); [|unfold md_k; nia].
        apply (lim_post (cap (2 * B))); [apply (lim_fill dbg pad 1)|apply post_fill, Hb|]. intros b1 H1.
        apply (lim_post (cap (2 * B))); [eapply lim_weak; [apply lim_fill|pose proof (pad_le B 8 (buf_size b1) HB); lia]|apply post_fill, H1|]. intros b2 H2.
        apply (lim_post (cap (2 * B))); [apply Hl|apply Hp, H2|]. intros b3 H3.
        apply lim_bind; [|intros; apply lim_ok]. eapply lim_weak; [apply md_impl_lim; exact I|]. pose proof (cap_span _ b3 H3). nia.
      + apply (post_bind (cap (2 * B))); [apply post_fill, Hb|]. intros b1 H1. apply (post_bind (cap (2 * B))); [apply post_fill, H1|]. intros b2 H2.
        apply (post_bind (cap (2 * B))); [apply Hp, H2|]. intros b3 H3. apply post_any. intros s'. apply post_ok. split; [apply cap_clear, H3|exact I].
    - intros [b s] _. cbn [md_leaky l_array]. destruct (Hx (Stream.md_h s)) as [X1 X2]. split.
      + eapply lim_weak; [exact X1|]. apply Nat.mul_le_mono_r. unfold md_k. lia.
      + intros r E. rewrite (X2 r E). apply le_n.
  Qed.
  Lemma md128_linear reserve compress' iv arr' :
    linear (md128_class B reserve dbg compress' iv arr') (md128_leaky B reserve dbg compress arr) (md_k cc B reserve) size.
  Proof using HB Hc Hx.
    exists (inv yes (2 * B)). split; [split; [apply cap_new|exact I]|]. split; [intros x [Hb _]; split; [apply cap_clear, Hb|exact I]|].
    split; [|split].
    - intros e x Ix. split; [|apply (post_add yes B (2 * B) dbg _ _ md128_impl_lim), Ix].
      eapply lim_weak; [apply (lim_add yes B (2 * B) dbg _ (cc + 3) md128_impl_lim e x Ix)|]. apply Nat.mul_le_mono_r. unfold md_k. lia.
    - intros [b s] [Hb _]. cbn [fst snd] in Hb. cbn [md128_leaky l_finalize]. unfold md128_finalize. cbv zeta. split.
      + apply (lim_weak (5 + ((2 * (B + reserve) + 3) + (64 + ((cc + 3) * S (2 * B) + 0))))); [|unfold md_k; nia].
        apply (lim_post (cap (2 * B))); [apply (lim_fill dbg 128 1)|apply post_fill, Hb|]. intros b1 H1.
        apply (lim_post (cap (2 * B))); [eapply lim_weak; [apply lim_fill|pose proof (pad_le B reserve (buf_size b1) HB); lia]|apply post_fill, H1|]. intros b2 H2.
        apply (lim_post (cap (2 * B))); [apply lim_len_128|apply post_len_128, H2|]. intros b3 H3.
        apply lim_bind; [|intros; apply lim_ok]. eapply lim_weak; [apply md128_impl_lim; exact I|]. pose proof (cap_span _ b3 H3). nia.
      + apply (post_bind (cap (2 * B))); [apply post_fill, Hb|]. intros b1 H1. apply (post_bind (cap (2 * B))); [apply post_fill, H1|]. intros b2 H2.
        apply (post_bind (cap (2 * B))); [apply post_len_128, H2|]. intros b3 H3. apply post_any. intros s'. apply post_ok. split; [apply cap_clear, H3|exact I].
    - intros [b s] _. cbn [md128_leaky l_array]. destruct (Hx (Stream.md8_h s)) as [X1 X2]. split.
      + eapply lim_weak; [exact X1|]. apply Nat.mul_le_mono_r. unfold md_k. lia.
      + intros r E. rewrite (X2 r E). apply le_n.
  Qed.
End MD.

Lemma store_array_fits n d : lim (4 * S n) (store_array n d) /\ post (fun r => length r = n) (store_array n d).
Proof. split; [eapply lim_weak; [apply lim_store|lia]|apply post_store]. Qed.

(** ** compression functions *)
Lemma lim_regs f regs n k r : (forall vs, lim n (f vs)) -> (forall vs, post (fun ws => length ws <= k) (f vs)) -> lim (length regs + n + 3 * k + 1) (LkCall.call_regs f regs r).
Proof.
  intros Hf Hp. unfold LkCall.call_regs. eapply lim_weak; [eapply lim_bind; [apply lim_map; intros; apply lim_get|intros vs]; eapply (lim_post (fun ws => length ws <= k)); [apply Hf|apply Hp|]|].
  - intros ws Hw. apply (lim_weak (length ws * (2 + 1) + 1) (3 * k + 1)); [|lia]. apply lim_fold. intros. eapply lim_weak; [lim|]. lia.
  - lia.
Qed.
(** a function of registers that assigns to at most eight of them *)
Definition short (n : nat) (f : list N -> res (list (nat * N))) : Prop := (forall vs, lim n (f vs)) /\ (forall vs, post (fun ws => length ws <= 8) (f vs)).
Lemma lim_short n f regs r : short n f -> lim (length regs + n + 25) (LkCall.call_regs f regs r).
Proof. intros [H K]. eapply lim_weak; [apply (lim_regs f regs n 8); assumption|lia]. Qed.
Ltac lims := repeat (cbv beta zeta; first [apply lim_le | apply lim_be | lim_step]).
Ltac lists vs tac := repeat (destruct vs as [|? vs]; cbv beta iota zeta; try solve [tac]).
Ltac short_tac :=
  split; intros vs;
  [ lists vs ltac:(apply lim_ub); eapply lim_weak; [lims|cbn; lia]
  | lists vs ltac:(apply post_ub); repeat (apply post_any; intros); apply post_ok; cbn; lia ].
Ltac no_call := exists 0; intros; apply lim_ub.

Lemma short_mix w r1 r2 r3 r4 x y : short 0 (LkBlakeMix.blakeMix w r1 r2 r3 r4 x y). Proof. unfold LkBlakeMix.blakeMix. short_tac. Qed.

Lemma md4_call c : exists n, forall m r, lim n (LkMd4.exec_call m c r).
Proof.
  destruct c as [fn regs args]. unfold LkMd4.exec_call. cbn [c_args c_regs c_fn]. destruct args as [|k [|s [|]]]; try no_call.
  exists (length regs + 4 + 25). intros m r. cbv zeta. destruct fn; apply lim_short; unfold LkMd4.round1, LkMd4.round23; short_tac.
Qed.
Lemma md4_lim : exists n, forall m st, lim n (LkMd4.compress m st).
Proof. destruct (lim_calls LkMd4.exec_call md4_call Md4Calls.calls) as [k K]. eexists. intros. unfold LkMd4.compress. lims. Qed.

Lemma md5_func n : lim 0 (LkMd5.func n).
Proof. unfold LkMd5.func. destruct n as [|[[p|p|]|[p|p|]|]]; first [apply lim_ok | apply lim_ub]. Qed.
Lemma md5_call c : exists n, forall m r, lim n (LkMd5.exec_call m c r).
Proof.
  destruct c as [fn regs args]. unfold LkMd5.exec_call. cbn [c_args c_regs c_fn]. destruct args as [|f [|k [|s [|t [|]]]]]; try no_call.
  exists (0 + (length regs + 4 + 25)). intros m r. apply lim_bind; [apply md5_func|]. intros F. apply lim_short. unfold LkMd5.round. short_tac.
Qed.
Lemma md5_lim : exists n, forall m st, lim n (LkMd5.compress m st).
Proof. destruct (lim_calls LkMd5.exec_call md5_call Md5Calls.calls) as [k K]. eexists. intros. unfold LkMd5.compress. lims. Qed.

Lemma sha1_call c : exists n, forall m r, lim n (LkSha1.exec_call m c r).
Proof.
  destruct c as [fn regs args]. unfold LkSha1.exec_call. cbn [c_args c_regs c_fn].
  destruct regs as [|a [|b [|c [|d [|e [|]]]]]], args as [|t [|]]; try no_call.
  exists 20. intros m [r w]. cbv zeta. destruct fn; unfold LkSha1.round, LkSha1.w_load, LkSha1.w_std, LkSha1.w_alt; (eapply lim_weak; [lims|cbn; lia]).
Qed.
Lemma sha1_lim : exists n, forall m st, lim n (LkSha1.compress m st).
Proof. destruct (lim_calls LkSha1.exec_call sha1_call Sha1Calls.calls) as [k K]. eexists. intros. unfold LkSha1.compress. lims. Qed.

Lemma sm3_call c : exists n, forall m r, lim n (LkSm3.exec_call m c r).
Proof.
  destruct c as [fn regs args]. unfold LkSm3.exec_call. cbn [c_args c_regs c_fn]. destruct fn, args as [|k [|t [|]]]; try no_call;
  exists (length regs + 2 + 25); intros m r; apply lim_short; unfold LkSm3.round; short_tac.
Qed.
Lemma sm3_lim : exists n, forall m st, lim n (LkSm3.compress m st).
Proof. destruct (lim_calls LkSm3.exec_call sm3_call Sm3Calls.calls) as [k K]. eexists. intros. unfold LkSm3.compress, LkSm3.expand. lims. Qed.

Lemma has160_call c : exists n, forall (_ : unit) s, lim n (LkHas160.exec_call c s).
Proof.
  destruct c as [fn regs args]. unfold LkHas160.exec_call. cbn [c_args c_regs c_fn].
  assert (forall x F k r s1 t, short 2 (LkHas160.round x F k r s1 t)) as S. { intros. unfold LkHas160.round, LkHas160.look. short_tac. }
  destruct fn, args as [|k [|t [|]]]; try (exists 0; intros _ [q x]; apply lim_ub).
  - eexists; intros _ [q x]. unfold LkHas160.extendTable, LkHas160.xor4, LkHas160.look. lims.
  - exists (length regs + 2 + 25 + 0); intros _ [q x]; apply lim_bind; [apply lim_short, S|intros; apply lim_ok].
  - exists (length regs + 2 + 25 + 0); intros _ [q x]; apply lim_bind; [apply lim_short, S|intros; apply lim_ok].
  - exists (length regs + 2 + 25 + 0); intros _ [q x]; apply lim_bind; [apply lim_short, S|intros; apply lim_ok].
  - exists (length regs + 2 + 25 + 0); intros _ [q x]; apply lim_bind; [apply lim_short, S|intros; apply lim_ok].
Qed.
Lemma has160_lim : exists n, forall m st, lim n (LkHas160.compress m st).
Proof.
  destruct (lim_calls (fun _ : unit => LkHas160.exec_call) has160_call Has160Calls.calls) as [k K]. specialize (K tt). eexists. intros.
  unfold LkHas160.compress, LkHas160.fill_table. repeat (cbv beta zeta; first [apply K | apply lim_le | lim_step]).
Qed.

Lemma rmd_func n : lim 0 (LkRipemd.func n).
Proof. unfold LkRipemd.func. destruct n as [|[[p|p|]|[[p|p|]|[p|p|]|]|]]; first [apply lim_ok | apply lim_ub]. Qed.
Lemma rmd_line4 args regs : exists n, forall m r, lim n (LkRipemd.line (LkRipemd.line4 m) args regs r).
Proof.
  unfold LkRipemd.line. destruct args as [|f [|k [|w [|s [|]]]]]; try no_call. exists (0 + (length regs + 4 + 25)). intros m r.
  apply lim_bind; [apply rmd_func|]. intros F. apply lim_short. unfold LkRipemd.line4. short_tac.
Qed.
Lemma rmd_line5 args regs : exists n, forall m r, lim n (LkRipemd.line (LkRipemd.line5 m) args regs r).
Proof.
  unfold LkRipemd.line. destruct args as [|f [|k [|w [|s [|]]]]]; try no_call. exists (0 + (length regs + 4 + 25)). intros m r.
  apply lim_bind; [apply rmd_func|]. intros F. apply lim_short. unfold LkRipemd.line5. short_tac.
Qed.
Lemma short_swap : short 0 LkRipemd.swap. Proof. unfold LkRipemd.swap. short_tac. Qed.
Lemma rmd128_call c : exists n, forall m r, lim n (LkRipemd.exec128 m c r).
Proof. destruct c as [fn regs args]. unfold LkRipemd.exec128. cbn [c_args c_regs c_fn]. destruct fn; apply rmd_line4. Qed.
Lemma rmd160_call c : exists n, forall m r, lim n (LkRipemd.exec160 m c r).
Proof. destruct c as [fn regs args]. unfold LkRipemd.exec160. cbn [c_args c_regs c_fn]. destruct fn; apply rmd_line5. Qed.
Lemma rmd256_call c : exists n, forall (m : list N) r, lim n (LkRipemd.exec256 m c r).
Proof.
  destruct c as [fn regs args]. unfold LkRipemd.exec256. cbn [c_args c_regs c_fn]. destruct fn; try apply rmd_line4.
  exists (length regs + 0 + 25). intros. apply lim_short, short_swap.
Qed.
Lemma rmd320_call c : exists n, forall (m : list N) r, lim n (LkRipemd.exec320 m c r).
Proof.
  destruct c as [fn regs args]. unfold LkRipemd.exec320. cbn [c_args c_regs c_fn]. destruct fn; try apply rmd_line5.
  exists (length regs + 0 + 25). intros. apply lim_short, short_swap.
Qed.
Lemma rmd128_lim : exists n, forall m st, lim n (LkRipemd.compress128 m st).
Proof. destruct (lim_calls LkRipemd.exec128 rmd128_call Ripemd128Calls.calls) as [k K]. eexists. intros. unfold LkRipemd.compress128, LkRipemd.mix. lims. Qed.
Lemma rmd160_lim : exists n, forall m st, lim n (LkRipemd.compress160 m st).
Proof. destruct (lim_calls LkRipemd.exec160 rmd160_call Ripemd160Calls.calls) as [k K]. eexists. intros. unfold LkRipemd.compress160, LkRipemd.mix. lims. Qed.
Lemma rmd256_lim : exists n, forall m st, lim n (LkRipemd.compress256 m st).
Proof. destruct (lim_calls LkRipemd.exec256 rmd256_call Ripemd256Calls.calls) as [k K]. eexists. intros. unfold LkRipemd.compress256, LkRipemd.add_all. lims. Qed.
Lemma rmd320_lim : exists n, forall m st, lim n (LkRipemd.compress320 m st).
Proof. destruct (lim_calls LkRipemd.exec320 rmd320_call Ripemd320Calls.calls) as [k K]. eexists. intros. unfold LkRipemd.compress320, LkRipemd.add_all. lims. Qed.

Lemma sha2_lim w nb rounds s0 s1 b0 b1 kt : exists n, forall m st, lim n (LkSha2.compress w nb rounds s0 s1 b0 b1 kt m st).
Proof.
  assert (forall wt a b c d e f g h t r, lim 20 (LkSha2.round w b0 b1 kt wt a b c d e f g h t r)) as R. { intros. unfold LkSha2.round. eapply lim_weak; [lims|lia]. }
  eexists. intros. unfold LkSha2.compress, LkSha2.fill_w, LkSha2.eight. repeat (first [apply R | progress lims]).
Qed.
Lemma tiger_lim : exists n, forall m h, lim n (LkTiger.compress m h).
Proof.
  assert (forall a b c x mul, lim 16 (LkTiger.round a b c x mul)) as R. { intros. unfold LkTiger.round, LkTiger.tT. eapply lim_weak; [lims|lia]. }
  assert (exists n, forall x a b c mul, lim n (LkTiger.pass x a b c mul)) as [n P]. { eexists. intros. unfold LkTiger.pass. repeat (first [apply R | progress lims]). }
  assert (forall x, lim 0 (LkTiger.keySchedule x)) as S. { intros x. unfold LkTiger.keySchedule. lists x ltac:(apply lim_ub). apply lim_ok. }
  eexists. intros. unfold LkTiger.compress. repeat (first [apply P | apply S | progress lims]).
Qed.
Lemma whirlpool_lim : exists n, forall m h, lim n (LkWhirlpool.compress m h).
Proof.
  assert (forall x a b c d e f g h, lim 24 (LkWhirlpool.func x a b c d e f g h)) as R. { intros. unfold LkWhirlpool.func, LkWhirlpool.cT. eapply lim_weak; [lims|lia]. }
  eexists. intros. unfold LkWhirlpool.compress, LkWhirlpool.round. repeat (first [apply R | progress lims]).
Qed.
Lemma blake1_lim w nb r1 r2 r3 r4 ct F calls K narrow : exists n, forall pl m s, lim n (LkBlake1.compress w nb r1 r2 r3 r4 ct F calls K narrow pl m s).
Proof.
  assert (forall c, exists n, forall m v, lim n (LkBlake1.exec_call w nb r1 r2 r3 r4 ct F m c v)) as R.
  { intros [fn regs args]. unfold LkBlake1.exec_call. cbn [c_args c_regs c_fn]. destruct args as [|x [|y [|k1 [|k2 [|]]]]]; try no_call.
    eexists. intros. lims. apply lim_short, short_mix. }
  destruct (lim_calls _ R calls) as [k Hk]. eexists. intros pl m [cnt h]. unfold LkBlake1.compress. lims.
Qed.
Lemma blake2_lim w nb r1 r2 r3 r4 iv F calls K : exists n, forall fin pl m s, lim n (LkBlake2.compress w nb r1 r2 r3 r4 iv F calls K fin pl m s).
Proof.
  assert (forall c, exists n, forall m v, lim n (LkBlake2.exec_call w nb r1 r2 r3 r4 F m c v)) as R.
  { intros [fn regs args]. unfold LkBlake2.exec_call. cbn [c_args c_regs c_fn]. destruct args as [|x [|y [|]]]; try no_call.
    eexists. intros. lims. apply lim_short, short_mix. }
  destruct (lim_calls _ R calls) as [k Hk]. eexists. intros fin pl m [cnt h]. unfold LkBlake2.compress. lims.
Qed.
Lemma keccak_lim : exists n, forall l i, lim n (LkKeccak.roundFunction i l).
Proof.
  eexists. intros. unfold LkKeccak.roundFunction, LkKeccak.theta, LkKeccak.rhoPiChi, LkKeccak.iota, LkKeccak.rhoPi_tmp, LkKeccak.chi, LkKeccak.column, LkKeccak.st_set, LkKeccak.st.
  lims.
Qed.

(** ** the other classes *)
Lemma blake1_linear w nb r1 r2 r3 r4 ct F calls K narrow lastbit size n iv : nb <> 0 -> exists k, forall dbg,
  linear (Blake1.cls w nb r1 r2 r3 r4 ct F calls K narrow lastbit dbg iv size n) (blake1 w nb r1 r2 r3 r4 ct F calls K narrow lastbit dbg size n) k size.
Proof.
  intros Hn. destruct (blake1_lim w nb r1 r2 r3 r4 ct F calls K narrow) as [cc Hc]. set (B := 16 * nb) in *. assert (B <> 0) as HB by lia.
  exists ((cc + 3) * (2 * B + 3) + 2 * B + 20 * nb + 200). intros dbg.
  assert (forall pl d s, yes s -> lim ((cc + 3) * S (length d)) (LkBlake1.impl w nb r1 r2 r3 r4 ct F calls K narrow dbg pl d s) /\
    post yes (LkBlake1.impl w nb r1 r2 r3 r4 ct F calls K narrow dbg pl d s)) as HI.
  { intros pl d s _. split; [|apply post_yes]. unfold LkBlake1.impl. eapply lim_weak; [eapply lim_bind; [apply lim_aligned|intros; apply (lim_loop _ cc), Hc]|nia]. }
  exists (inv yes (2 * B)). split; [split; [apply cap_new|exact I]|]. split; [intros x [Hb _]; split; [apply cap_clear, Hb|exact I]|].
  split; [|split].
  - intros e x Ix. split; [|apply (post_add yes B (2 * B) dbg _ _ (HI 0)), Ix].
    eapply lim_weak; [apply (lim_add yes B (2 * B) dbg _ (cc + 3) (HI 0) e x Ix)|]. apply Nat.mul_le_mono_r. lia.
  - intros [b s] [Hb _]. cbn [fst snd] in Hb. cbn [blake1 stream_leaky l_finalize]. unfold LkBlake1.finalize. cbv zeta. change (LkBlake1.BLOCK_SIZE nb) with B.
    assert (forall x, cap (2 * B) x -> post (cap (2 * B)) (LkBlake1.set_lastbit nb lastbit x)) as P1.
    { intros x Hx. unfold LkBlake1.set_lastbit. apply post_tell. destruct lastbit; [|apply post_ok, Hx]. apply post_any. intros. now apply post_setend. }
    assert (forall lo hi x, cap (2 * B) x -> post (cap (2 * B)) (LkBlake1.write_len nb lo hi x)) as P2.
    { intros lo hi x Hx. unfold LkBlake1.write_len. apply post_for; [|exact Hx]. intros. apply (post_bind (cap (2 * B))); intros; now apply post_setend. }
    split.
    + apply (lim_weak (5 + ((2 * (B + 2 * nb) + 3) + (5 + ((nb * 5 + 1) + ((cc + 3) * S (2 * B) + 0)))))); [|nia].
      apply (lim_post (cap (2 * B))); [apply (lim_fill dbg 128 1)|apply post_fill, Hb|]. intros b1 H1.
      apply (lim_post (cap (2 * B))); [eapply lim_weak; [apply lim_fill|pose proof (pad_le B (2 * nb) (buf_size b1) HB); lia]|apply post_fill, H1|]. intros b2 H2.
      apply (lim_post (cap (2 * B))); [|apply P1, H2|].
      { unfold LkBlake1.set_lastbit. eapply lim_weak; [apply lim_if; [eapply (lim_bind 2 2); [apply lim_getend|intros; apply lim_setend]|apply lim_ok]|lia]. }
      intros b3 H3. apply (lim_post (cap (2 * B))); [|apply P2, H3|].
      { unfold LkBlake1.write_len. apply (lim_for 4). intros. apply (lim_bind 2 2); intros; apply lim_setend. }
      intros b4 H4. apply lim_bind; [|intros; apply lim_ok]. eapply lim_weak; [apply HI; exact I|]. pose proof (cap_span _ b4 H4). nia.
    + apply (post_bind (cap (2 * B))); [apply post_fill, Hb|]. intros b1 H1. apply (post_bind (cap (2 * B))); [apply post_fill, H1|]. intros b2 H2.
      apply (post_bind (cap (2 * B))); [apply P1, H2|]. intros b3 H3. apply (post_bind (cap (2 * B))); [apply P2, H3|]. intros b4 H4.
      apply post_any. intros s'. apply post_ok. split; [apply cap_clear, H4|exact I].
  - intros [b s] _. cbn [blake1 stream_leaky l_array]. unfold LkBlake1.toArray. split.
    + eapply lim_weak; [apply lim_store|]. nia.
    + intros r E. rewrite (post_store _ _ r E). apply le_n.
Qed.

Lemma blake2_linear w nb r1 r2 r3 r4 iv F calls K size : exists k, forall dbg,
  linear (Blake2.cls w nb r1 r2 r3 r4 iv F calls K dbg size) (blake2 w nb r1 r2 r3 r4 iv F calls K dbg size) k size.
Proof.
  destruct (blake2_lim w nb r1 r2 r3 r4 iv F calls K) as [cc Hc]. set (B := 16 * nb) in *.
  exists (4 * ((cc + 3) * (B + 3) + 64) + 2 * B + 200). intros dbg.
  assert (forall fin pl d s, yes s -> lim ((cc + 3) * S (length d)) (LkBlake2.impl w nb r1 r2 r3 r4 iv F calls K dbg fin pl d s) /\
    post yes (LkBlake2.impl w nb r1 r2 r3 r4 iv F calls K dbg fin pl d s)) as HI.
  { intros fin pl d s _. split; [|apply post_yes]. unfold LkBlake2.impl. eapply lim_weak; [eapply lim_bind; [apply lim_aligned|intros; apply (lim_loop _ cc), Hc]|nia]. }
  exists (inv yes B). split; [split; [apply cap_new|exact I]|]. split; [intros x [Hb _]; split; [apply cap_clear, Hb|exact I]|].
  split; [|split].
  - intros e x Ix. destruct (add2 yes B dbg _ (cc + 3) (HI false 0) 3 e x Ix) as [A1 A2]. split; [|exact A2].
    eapply lim_weak; [exact A1|]. rewrite Nat.mul_assoc. apply Nat.mul_le_mono_r. lia.
  - intros [b s] [Hb _]. cbn [fst snd] in Hb. cbn [blake2 l_finalize]. unfold LkBlake2.finalize. cbv zeta. change (LkBlake2.BLOCK_SIZE nb) with B. split.
    + apply (lim_weak ((2 * B + 3) + ((cc + 3) * S B + 0))); [|nia].
      apply (lim_post (cap B)); [eapply lim_weak; [apply lim_fill|lia]|apply post_fill, Hb|]. intros b1 H1.
      apply lim_bind; [|intros; apply lim_ok]. eapply lim_weak; [apply HI; exact I|]. pose proof (cap_span _ b1 H1). nia.
    + apply (post_bind (cap B)); [apply post_fill, Hb|]. intros b1 H1. apply post_any. intros s'. apply post_ok. split; [apply cap_clear, H1|exact I].
  - intros [b s] _. cbn [blake2 l_array]. unfold LkBlake2.toArray. split.
    + eapply lim_weak; [apply lim_store|]. nia.
    + intros r E. rewrite (post_store _ _ r E). apply le_n.
Qed.

Lemma keccak_linear R P : R <> 0 -> exists k, forall dbg d, linear (Keccak.cls R P dbg d) (keccak R P dbg) k d.
Proof.
  intros HR. destruct keccak_lim as [rc Hrc].
  assert (exists cc, forall m l, lim cc (LkKeccak.compress R m l)) as [cc Hc]. { eexists. intros. unfold LkKeccak.compress. repeat (cbv beta zeta; first [apply Hrc | apply lim_le | lim_step]). }
  exists ((cc + 3) * (2 * R + 5) + 2 * R + 200). intros dbg d.
  set (J := fun s => Keccak.k_len s = d /\ length (Keccak.k_final s) <= d).
  assert (forall e s, lim ((cc + 3) * S (length e)) (LkKeccak.impl R dbg e s) /\
    post (fun t => Keccak.k_len t = Keccak.k_len s /\ Keccak.k_final t = Keccak.k_final s) (LkKeccak.impl R dbg e s)) as HI.
  { intros e s. unfold LkKeccak.impl. split.
    - eapply lim_weak; [eapply lim_bind; [apply lim_aligned|intros]; eapply lim_bind; [apply (lim_loop _ cc), Hc|intros; apply lim_ok]|nia].
    - apply post_any. intros. apply post_any. intros. apply post_ok. split; reflexivity. }
  assert (forall e s, J s -> lim ((cc + 3) * S (length e)) (LkKeccak.impl R dbg e s) /\ post J (LkKeccak.impl R dbg e s)) as HJ.
  { intros e s [J1 J2]. destruct (HI e s) as [K1 K2]. split; [exact K1|]. intros t E. destruct (K2 t E) as [E1 E2]. unfold J. rewrite E1, E2. auto. }
  exists (inv J R). split; [split; [apply cap_clear, cap_new|split; [reflexivity|apply Nat.le_0_l]]|].
  split; [intros x [Hb [J1 _]]; split; [apply cap_clear, Hb|split; [exact J1|apply Nat.le_0_l]]|].
  split; [|split].
  - intros e x Ix. split; [|apply (post_add J R R dbg _ _ HJ), Ix].
    eapply lim_weak; [apply (lim_add J R R dbg _ (cc + 3) HJ e x Ix)|]. apply Nat.mul_le_mono_r. nia.
  - assert (forall fuel s, Keccak.k_len s = d -> lim (fuel * ((cc + 3) * S R + 4)) (LkKeccak.squish R dbg fuel s) /\ post (fun t => Keccak.k_len t = d) (LkKeccak.squish R dbg fuel s)) as SQ.
    { intros fuel. induction fuel as [|f IH]; intros s Hs; cbn [LkKeccak.squish]; [split; [apply lim_ub|apply post_ub]|]. cbv zeta. split.
      - apply (lim_weak (1 + S (0 + ((cc + 3) * S R + f * ((cc + 3) * S R + 4))))); [|lia].
        apply lim_bind; [eapply lim_weak; [apply lim_if; [apply lim_ok|apply (lim_ub 0)]|lia]|]. intros head.
        apply lim_if; [apply lim_ok|]. set (s1 := Keccak.mkSt _ _ _). destruct (HI (repeat 0%N R) s1) as [K1 K2]. rewrite repeat_length in K1.
        apply (lim_post (fun t => Keccak.k_len t = d)); [exact K1| |].
        + intros t E. destruct (K2 t E) as [E1 _]. rewrite E1. exact Hs.
        + intros t Ht. apply IH, Ht.
      - apply post_any. intros head. apply post_tell. set (s1 := Keccak.mkSt _ _ _). destruct (_ <=? _); [apply post_ok; exact Hs|].
        destruct (HI (repeat 0%N R) s1) as [_ K2].
        apply (post_bind (fun t => Keccak.k_len t = d)); [intros t E; destruct (K2 t E) as [E1 _]; rewrite E1; exact Hs|]. intros t Ht. apply IH, Ht. }
    intros [b s] [Hb [J1 J2]]. cbn [fst snd] in Hb, J1, J2. cbn [keccak l_finalize]. unfold LkKeccak.finalize. cbv zeta.
    assert (forall k, (2 * R - k) mod R <= R) as HM. { intros k. pose proof (Nat.mod_upper_bound (2 * R - k) R HR). lia. }
    split.
    + apply (lim_weak (5 + ((2 * R + 3) + (2 + (2 + ((cc + 3) * S R + (S d * ((cc + 3) * S R + 4) + 0))))))); [|nia].
      apply (lim_post (cap R)); [apply (lim_fill dbg P 1)|apply post_fill, Hb|]. intros b1 H1.
      apply (lim_post (cap R)); [eapply lim_weak; [apply lim_fill|specialize (HM (buf_size b1)); lia]|apply post_fill, H1|]. intros b2 H2.
      apply lim_bind; [apply lim_getend|]. intros v.
      apply (lim_post (cap R)); [apply lim_setend|apply post_setend, H2|]. intros b3 H3.
      destruct (HI (buf_span b3) s) as [K1 K2].
      apply (lim_post (fun t => Keccak.k_len t = d)); [eapply lim_weak; [exact K1|pose proof (cap_span _ b3 H3); nia]|intros t E; destruct (K2 t E) as [E1 _]; rewrite E1; exact J1|].
      intros t Ht. apply lim_bind; [|intros; apply lim_ok]. rewrite Ht. apply SQ, Ht.
    + apply (post_bind (cap R)); [apply post_fill, Hb|]. intros b1 H1. apply (post_bind (cap R)); [apply post_fill, H1|]. intros b2 H2.
      apply post_any. intros v. apply (post_bind (cap R)); [apply post_setend, H2|]. intros b3 H3.
      destruct (HI (buf_span b3) s) as [_ K2].
      apply (post_bind (fun t => Keccak.k_len t = d)); [intros t E; destruct (K2 t E) as [E1 _]; rewrite E1; exact J1|]. intros t Ht.
      apply (post_bind (fun t => Keccak.k_len t = d)); [rewrite Ht; apply SQ, Ht|]. intros u Hu. apply post_ok. split; [apply cap_clear, H3|].
      split; [exact Hu|]. cbn [snd Keccak.k_final]. unfold LkKeccak.resize. rewrite app_length, firstn_length, repeat_length, Hu. lia.
  - intros [b s] [_ [_ J2]]. cbn [keccak l_array]. unfold LkKeccak.toVector. split; [eapply lim_weak; [apply lim_ok|lia]|]. apply post_ok. exact J2.
Qed.

Lemma md2_linear : exists k, forall dbg, linear (class MD2 dbg) (leaky MD2 dbg) k 16.
Proof.
  set (J := fun s => length (Md2.m_checksum s) = 16).
  assert (exists cc, forall m s, lim cc (LkMd2.compress m s)) as [cc Hc].
  { eexists. intros. unfold LkMd2.compress, LkMd2.checksum_loop, LkMd2.copy_loop, LkMd2.round_loop, LkMd2.subst. lims. }
  assert (forall m s, J s -> post J (LkMd2.compress m s)) as Hp.
  { intros m s Hs. unfold LkMd2.compress. cbv zeta. apply (post_bind (fun c : list N * N => length (fst c) = 16)).
    - unfold LkMd2.checksum_loop. apply post_for; [|exact Hs]. intros i [c L] Hl. do 3 (apply post_any; intros).
      apply (post_bind (fun r => length r = 16)); [apply post_set, Hl|]. intros r Hr. apply post_ok, Hr.
    - intros c Hcs. do 2 (apply post_any; intros). apply post_ok. exact Hcs. }
  assert (forall e s, J s -> lim ((cc + 3) * S (length e)) (LkMd2.addDataImpl e s) /\ post J (LkMd2.addDataImpl e s)) as HI.
  { intros e s Hs. unfold LkMd2.addDataImpl. split; [eapply lim_weak; [apply (lim_loop 16 cc), Hc|nia]|].
    unfold block_loop. apply post_for; [|exact Hs]. intros. now apply Hp. }
  exists ((cc + 3) * 100 + 200). intros dbg. exists (inv J 32). split; [split; [apply cap_new|reflexivity]|].
  split; [intros x [Hb _]; split; [apply cap_clear, Hb|reflexivity]|]. split; [|split].
  - intros e x Ix. split; [|apply (post_add J 16 32 dbg _ _ HI), Ix].
    eapply lim_weak; [apply (lim_add J 16 32 dbg _ (cc + 3) HI e x Ix)|]. apply Nat.mul_le_mono_r. lia.
  - intros [b s] [Hb Hs]. cbn [fst snd] in Hb, Hs. cbn [leaky stream_leaky l_finalize]. unfold LkMd2.finalize. cbv zeta. split.
    + apply (lim_weak (35 + ((cc + 3) * 33 + ((cc + 3) * 17 + 0)))); [|nia].
      apply (lim_post (cap 32)); [eapply lim_weak; [apply lim_fill|]; lia|apply post_fill, Hb|]. intros b1 H1.
      apply (lim_post J); [eapply lim_weak; [apply HI, Hs|pose proof (cap_span _ b1 H1); nia]|apply HI, Hs|]. intros s1 Hs1.
      apply lim_bind; [|intros; apply lim_ok]. eapply lim_weak; [apply HI, Hs1|]. rewrite Hs1. apply le_n.
    + apply (post_bind (cap 32)); [apply post_fill, Hb|]. intros b1 H1. apply (post_bind J); [apply HI, Hs|]. intros s1 Hs1.
      apply (post_bind J); [apply HI, Hs1|]. intros s2 Hs2. apply post_ok. split; [apply cap_clear, H1|exact Hs2].
  - intros [b s] _. cbn [leaky stream_leaky l_array]. unfold LkMd2.toArray. split.
    + eapply lim_weak; [apply (lim_map 1); intros; apply lim_get|]. rewrite seq_length. lia.
    + intros r E. assert (forall (f : nat -> res N) l r, snd (mapM f l) = Res.Ok r -> length r = length l) as ML.
      { clear. intros f l. induction l as [|x l IH]; intros r E; cbn [mapM] in E; [injection E as <-; reflexivity|].
        cbn [bind snd] in E. destruct (snd (f x)); try discriminate E. cbn [Res.bind] in E. destruct (snd (mapM f l)) as [ys| |] eqn:Ey; try discriminate E.
        cbn [Res.bind Ok snd] in E. injection E as <-. cbn [length]. f_equal. apply IH. reflexivity. }
      rewrite (ML _ _ _ E), seq_length. apply le_n.
Qed.

Lemma crc_linear : exists k, forall dbg, linear (class CRC_32 dbg) (leaky CRC_32 dbg) k 4.
Proof.
  assert (exists cc, forall m h, lim cc (LkCrc32.block m h)) as [cc Hc]. { eexists. intros. unfold LkCrc32.block, LkCrc32.lut. lims. }
  exists (cc + 20). intros dbg. exists yes. split; [exact I|]. split; [intros; exact I|]. split; [|split].
  - intros e x _. split; [|apply post_yes]. cbn [leaky l_add]. unfold LkCrc32.addDataImpl. cbv zeta.
    eapply lim_weak; [eapply lim_bind; [apply (lim_loop 16 cc), Hc|intros; apply (lim_for 3); intros]|nia].
    unfold LkCrc32.byte, LkCrc32.lut. eapply lim_weak; [lims|lia].
  - intros x _. split; [|apply post_yes]. eapply lim_weak; [apply lim_ok|lia].
  - intros x _. cbn [leaky l_array]. unfold LkCrc32.toArray. split; [eapply lim_weak; [apply lim_store|lia]|]. intros r E. rewrite (post_store _ _ r E). apply le_n.
Qed.
Lemma fnv_linear size variant : exists k, linear (Fnv.cls size variant) (fnv size variant) k size.
Proof.
  exists 20. exists yes. split; [exact I|]. split; [intros; exact I|]. split; [|split].
  - intros e x _. split; [|apply post_yes]. cbn [fnv l_add]. unfold LkFnv.addDataImpl. eapply lim_weak; [apply (lim_fold 0); intros; apply lim_ok|lia].
  - intros x _. split; [|apply post_yes]. eapply lim_weak; [apply lim_ok|lia].
  - intros x _. cbn [fnv l_array]. unfold LkFnv.toArray. split; [eapply lim_weak; [apply lim_store|lia]|]. intros r E. rewrite (post_store _ _ r E). apply le_n.
Qed.
Lemma siphash_linear : exists k, forall dbg k0 k1, linear (class (Library.SipHash k0 k1) dbg) (leaky (Library.SipHash k0 k1) dbg) k 8.
Proof.
  assert (forall n v, lim (n + 1) (LkSipHash.sipRounds n v)) as HR. { intros. unfold LkSipHash.sipRounds. eapply lim_weak; [apply (lim_for 0); intros; apply lim_ok|lia]. }
  assert (forall m v, lim 19 (LkSipHash.compress 2 m v)) as Hc.
  { intros m [a b c d]. unfold LkSipHash.compress. apply (lim_weak (8 + (3 + (8 + 0)))); [|lia].
    apply lim_bind; [apply lim_le|intros]. apply lim_bind; [apply (HR 2)|intros]. apply lim_bind; [apply lim_le|intros v']. destruct a1. apply lim_ok. }
  exists 5000. intros dbg k0 k1.
  assert (forall e s, yes s -> lim (22 * S (length e)) (LkSipHash.addDataImpl 2 dbg e s) /\ post yes (LkSipHash.addDataImpl 2 dbg e s)) as HI.
  { intros e s _. split; [|apply post_yes]. unfold LkSipHash.addDataImpl.
    eapply lim_weak; [eapply lim_bind; [apply lim_aligned|intros]; eapply lim_bind; [apply (lim_loop 8 19), Hc|intros; apply lim_ok]|lia]. }
  exists (inv yes 16). split; [split; [apply cap_new|exact I]|]. split; [intros x [Hb _]; split; [apply cap_clear, Hb|exact I]|]. split; [|split].
  - intros e x Ix. split; [|apply (post_add yes 8 16 dbg _ _ HI), Ix].
    eapply lim_weak; [apply (lim_add yes 8 16 dbg _ 22 HI e x Ix)|]. apply Nat.mul_le_mono_r. lia.
  - intros [b s] [Hb _]. cbn [fst snd] in Hb. cbn [leaky l_finalize]. unfold LkSipHash.finalize. cbv zeta. split.
    + apply (lim_weak (S (0 + (17 + (5 + (22 * 17 + (5 + 0))))))); [|lia].
      apply lim_if; [apply lim_ub|]. apply (lim_post (cap 16)); [eapply lim_weak; [apply lim_fill|lia]|apply post_fill, Hb|]. intros b1 H1.
      apply (lim_post (cap 16)); [apply (lim_fill dbg _ 1)|apply post_fill, H1|]. intros b2 H2.
      apply lim_bind; [eapply lim_weak; [apply HI; exact I|pose proof (cap_span _ b2 H2); lia]|]. intros s1.
      destruct (SipHash.s_v s1). apply lim_bind; [apply (HR 4)|intros; apply lim_ok].
    + apply post_tell. destruct (_ <? _); [apply post_ub|]. apply (post_bind (cap 16)); [apply post_fill, Hb|]. intros b1 H1.
      apply (post_bind (cap 16)); [apply post_fill, H1|]. intros b2 H2. apply post_any. intros s1. destruct (SipHash.s_v s1). apply post_any. intros.
      apply post_ok. split; [apply cap_clear, H2|exact I].
  - intros [b s] _. cbn [leaky l_array]. unfold LkSipHash.toArray. cbn [snd]. destruct (SipHash.s_v s). split; [eapply lim_weak; [apply lim_store|lia]|].
    intros r E. rewrite (post_store _ _ r E). apply le_n.
Qed.

Definition lin (a : alg) (k : nat) : Prop := forall dbg, linear (class a dbg) (leaky a dbg) k (digest_size a).
Lemma md_le {H} (compress : list N -> H -> res H) (arr : H -> res (list N)) size : (exists n, forall m h, lim n (compress m h)) ->
  (forall h, lim (4 * S size) (arr h) /\ post (fun r => length r = size) (arr h)) ->
  exists k, forall dbg pad wl' compress' iv arr', linear (md_class 64 dbg pad wl' compress' iv arr') (md_leaky 64 dbg pad write_len_le compress arr) k size.
Proof. intros [cc Hc] Hx. exists (md_k cc 64 8). intros. apply md_linear; [lia|exact Hc|exact Hx|exact lim_len_le|exact post_len_le]. Qed.
Lemma md_be {H} (compress : list N -> H -> res H) (arr : H -> res (list N)) size : (exists n, forall m h, lim n (compress m h)) ->
  (forall h, lim (4 * S size) (arr h) /\ post (fun r => length r = size) (arr h)) ->
  exists k, forall dbg pad wl' compress' iv arr', linear (md_class 64 dbg pad wl' compress' iv arr') (md_leaky 64 dbg pad write_len_be compress arr) k size.
Proof. intros [cc Hc] Hx. exists (md_k cc 64 8). intros. apply md_linear; [lia|exact Hc|exact Hx|exact lim_len_be|exact post_len_be]. Qed.
Lemma md128_ex {H} B reserve (compress : list N -> H -> res H) (arr : H -> res (list N)) size : B <> 0 -> (exists n, forall m h, lim n (compress m h)) ->
  (forall h, lim (4 * S size) (arr h) /\ post (fun r => length r = size) (arr h)) ->
  exists k, forall dbg compress' iv arr', linear (md128_class B reserve dbg compress' iv arr') (md128_leaky B reserve dbg compress arr) k size.
Proof. intros HB [cc Hc] Hx. exists (md_k cc B reserve). intros. apply md128_linear; [exact HB|exact Hc|exact Hx]. Qed.
Lemma tiger_fits size h : lim (4 * S size) (LkTiger.toArray size h) /\ post (fun r => length r = size) (LkTiger.toArray size h).
Proof. unfold LkTiger.toArray. destruct h as [[a b] c]. apply store_array_fits. Qed.
Lemma sha224_fits h : lim (4 * 29) (LkSha2.toArray_512_224 h) /\ post (fun r => length r = 28) (LkSha2.toArray_512_224 h).
Proof.
  unfold LkSha2.toArray_512_224. split; [eapply lim_weak; [eapply lim_bind; [apply lim_get|intros; apply lim_store]|lia]|]. apply post_any. intros. apply post_store.
Qed.

Lemma linear_each a : match a with SHAKE_128 _ | SHAKE_256 _ | Library.SipHash _ _ => True | _ => exists k, lin a k end.
Proof.
  destruct a; try exact I.
  - apply blake1_linear. lia.
  - apply blake1_linear. lia.
  - apply blake1_linear. lia.
  - apply blake1_linear. lia.
  - apply blake2_linear.
  - apply blake2_linear.
  - exact crc_linear.
  - destruct (fnv_linear 4 0) as [k K]. exists k. intros dbg. exact K.
  - destruct (fnv_linear 4 1) as [k K]. exists k. intros dbg. exact K.
  - destruct (fnv_linear 4 2) as [k K]. exists k. intros dbg. exact K.
  - destruct (fnv_linear 8 0) as [k K]. exists k. intros dbg. exact K.
  - destruct (fnv_linear 8 1) as [k K]. exists k. intros dbg. exact K.
  - destruct (fnv_linear 8 2) as [k K]. exists k. intros dbg. exact K.
  - destruct (md_le LkHas160.compress LkHas160.toArray 20 has160_lim (fun h => store_array_fits 20 _)) as [k K]. exists k. intros dbg. apply K.
  - exact md2_linear.
  - destruct (md_le LkMd4.compress LkMd4.toArray 16 md4_lim (fun h => store_array_fits 16 _)) as [k K]. exists k. intros dbg. apply K.
  - destruct (md_le LkMd5.compress LkMd5.toArray 16 md5_lim (fun h => store_array_fits 16 _)) as [k K]. exists k. intros dbg. apply K.
  - destruct (md_le LkRipemd.compress128 (LkRipemd.toArray 16) 16 rmd128_lim (fun h => store_array_fits 16 _)) as [k K]. exists k. intros dbg. apply K.
  - destruct (md_le LkRipemd.compress160 (LkRipemd.toArray 20) 20 rmd160_lim (fun h => store_array_fits 20 _)) as [k K]. exists k. intros dbg. apply K.
  - destruct (md_le LkRipemd.compress256 (LkRipemd.toArray 32) 32 rmd256_lim (fun h => store_array_fits 32 _)) as [k K]. exists k. intros dbg. apply K.
  - destruct (md_le LkRipemd.compress320 (LkRipemd.toArray 40) 40 rmd320_lim (fun h => store_array_fits 40 _)) as [k K]. exists k. intros dbg. apply K.
  - destruct (md_be LkSha1.compress LkSha1.toArray 20 sha1_lim (fun h => store_array_fits 20 _)) as [k K]. exists k. intros dbg. apply K.
  - destruct (md_be LkSha2.compress32 (LkSha2.toArray 4 28 7) 28 (sha2_lim _ _ _ _ _ _ _ _) (fun h => store_array_fits 28 _)) as [k K]. exists k. intros dbg. apply K.
  - destruct (md_be LkSha2.compress32 (LkSha2.toArray 4 32 8) 32 (sha2_lim _ _ _ _ _ _ _ _) (fun h => store_array_fits 32 _)) as [k K]. exists k. intros dbg. apply K.
  - destruct (md128_ex 128 16 LkSha2.compress64 (LkSha2.toArray 8 48 6) 48 ltac:(lia) (sha2_lim _ _ _ _ _ _ _ _) (fun h => store_array_fits 48 _)) as [k K]. exists k. intros dbg. apply K.
  - destruct (md128_ex 128 16 LkSha2.compress64 (LkSha2.toArray 8 64 8) 64 ltac:(lia) (sha2_lim _ _ _ _ _ _ _ _) (fun h => store_array_fits 64 _)) as [k K]. exists k. intros dbg. apply K.
  - destruct (md128_ex 128 16 LkSha2.compress64 LkSha2.toArray_512_224 28 ltac:(lia) (sha2_lim _ _ _ _ _ _ _ _) sha224_fits) as [k K]. exists k. intros dbg. apply K.
  - destruct (md128_ex 128 16 LkSha2.compress64 (LkSha2.toArray 8 32 4) 32 ltac:(lia) (sha2_lim _ _ _ _ _ _ _ _) (fun h => store_array_fits 32 _)) as [k K]. exists k. intros dbg. apply K.
  - destruct (keccak_linear (1152 / 8) 0x06 ltac:(discriminate)) as [k K]. exists k. intros dbg. apply (K dbg (224 / 8)).
  - destruct (keccak_linear (1088 / 8) 0x06 ltac:(discriminate)) as [k K]. exists k. intros dbg. apply (K dbg (256 / 8)).
  - destruct (keccak_linear (832 / 8) 0x06 ltac:(discriminate)) as [k K]. exists k. intros dbg. apply (K dbg (384 / 8)).
  - destruct (keccak_linear (576 / 8) 0x06 ltac:(discriminate)) as [k K]. exists k. intros dbg. apply (K dbg (512 / 8)).
  - destruct (md_be LkSm3.compress LkSm3.toArray 32 sm3_lim (fun h => store_array_fits 32 _)) as [k K]. exists k. intros dbg. apply K.
  - destruct (md_le LkTiger.compress (LkTiger.toArray 16) 16 tiger_lim (tiger_fits 16)) as [k K]. exists k. intros dbg. apply K.
  - destruct (md_le LkTiger.compress (LkTiger.toArray 20) 20 tiger_lim (tiger_fits 20)) as [k K]. exists k. intros dbg. apply K.
  - destruct (md_le LkTiger.compress (LkTiger.toArray 24) 24 tiger_lim (tiger_fits 24)) as [k K]. exists k. intros dbg. apply K.
  - destruct (md_le LkTiger.compress (LkTiger.toArray 16) 16 tiger_lim (tiger_fits 16)) as [k K]. exists k. intros dbg. apply K.
  - destruct (md_le LkTiger.compress (LkTiger.toArray 20) 20 tiger_lim (tiger_fits 20)) as [k K]. exists k. intros dbg. apply K.
  - destruct (md_le LkTiger.compress (LkTiger.toArray 24) 24 tiger_lim (tiger_fits 24)) as [k K]. exists k. intros dbg. apply K.
  - destruct (md128_ex 64 32 LkWhirlpool.compress LkWhirlpool.toArray 64 ltac:(lia) whirlpool_lim (fun h => store_array_fits 64 _)) as [k K]. exists k. intros dbg. apply K.
Qed.

(** one constant for all classes, lengths and keys *)
Definition plain : list alg :=
  [Blake1_224; Blake1_256; Blake1_384; Blake1_512; Library.Blake2; Blake2s; CRC_32; FNV32_0; FNV32_1; FNV32_1a; FNV64_0; FNV64_1; FNV64_1a;
   HAS_160; MD2; MD4; MD5; RIPEMD_128; RIPEMD_160; RIPEMD_256; RIPEMD_320; SHA1; SHA2_224; SHA2_256; SHA2_384; SHA2_512; SHA2_512_224; SHA2_512_256;
   SHA3_224; SHA3_256; SHA3_384; SHA3_512; SM3; Tiger1_128; Tiger1_160; Tiger1_192; Tiger2_128; Tiger2_160; Tiger2_192; Library.Whirlpool].
Lemma lin_list l : (forall a, In a l -> exists k, lin a k) -> exists k, forall a, In a l -> lin a k.
Proof.
  induction l as [|x l IH]; intros H; [exists 0; intros a []|]. destruct (H x (or_introl eq_refl)) as [k K].
  destruct IH as [q Q]; [intros; apply H; now right|]. exists (k + q). intros a [<-|Ha] dbg; [apply (linear_weak _ _ k); [lia|apply K]|apply (linear_weak _ _ q); [lia|now apply Q]].
Qed.
Lemma linear_all : exists k, forall a, lin a k.
Proof.
  destruct (lin_list plain) as [k1 K1]. { intros a Ha. pose proof (linear_each a) as E. destruct a; first [exact E | exfalso; cbn in Ha; repeat destruct Ha as [Ha|Ha]; discriminate Ha || exact Ha]. }
  destruct (keccak_linear (1344 / 8) 0x1F ltac:(discriminate)) as [k2 K2]. destruct (keccak_linear (1088 / 8) 0x1F ltac:(discriminate)) as [k3 K3].
  destruct siphash_linear as [k4 K4]. exists (k1 + k2 + k3 + k4). intros a dbg.
  assert (match a with SHAKE_128 _ | SHAKE_256 _ | Library.SipHash _ _ => True | _ => In a plain end) as Hp. { destruct a; try exact I; cbn; tauto. }
  destruct a; try (apply (linear_weak _ _ k1); [lia|apply K1, Hp]).
  - apply (linear_weak _ _ k2); [lia|apply (K2 dbg digestLength)].
  - apply (linear_weak _ _ k3); [lia|apply (K3 dbg digestLength)].
  - apply (linear_weak _ _ k4); [lia|apply K4].
Qed.

Theorem work_linear : exists k, forall a dbg p, length (trace (observed a dbg p)) <= k * S (digest_size a) * program_size p.
Proof.
  destruct linear_all as [k K]. exists (k + 4). intros a dbg p. destruct (K a dbg) as (J & Hn & Hr & Ha & Hf & Hx).
  apply (run_lim _ _ k (digest_size a) J Hr Ha Hf Hx p). intros. exact Hn.
Qed.
(** no single call is slow, whatever went before *)
Theorem call_linear : exists k, forall a dbg p os st i o, outcome (observed a dbg p) = Res.Ok (os, st) ->
  length (trace (run_op (class a dbg) (leaky a dbg) o (st i))) <= match o with AddData e => k * S (length e) | _ => k * S (digest_size a) end.
Proof.
  destruct linear_all as [k K]. exists (k + 4). intros a dbg p os st i o E. destruct (K a dbg) as (J & Hn & Hr & Ha & Hf & Hx).
  destruct (run_lim _ _ k (digest_size a) J Hr Ha Hf Hx p (fun _ => c_new (class a dbg)) (fun _ => Hn)) as [_ P].
  eapply lim_weak; [apply (op_lim _ _ k (digest_size a) J Hr Ha Hf Hx), (P (os, st) E)|]. destruct o; cbn [op_cost]; try apply le_n. lia.
Qed.
Theorem eq_work n l r i : length (trace (LeakLibrary.eq_loop n i l r)) <= 4 * n + 1.
Proof.
  revert i. induction n as [|n IH]; intros i; cbn [LeakLibrary.eq_loop]; [apply lim_tell, lim_ok|]. apply (lim_weak (S (1 + (1 + S ((4 * n + 1) + 0))))); [|lia].
  apply lim_tell. apply lim_bind; [apply lim_get|intros]. apply lim_bind; [apply lim_get|intros]. apply lim_if; [apply IH|apply lim_ok].
Qed.
