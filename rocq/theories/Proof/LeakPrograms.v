(** Programs on objects of the classes without data-dependent indices and branches; what == and toString() show. *)
From Coq Require Import List NArith Arith Bool Lia.
From Verif.Base Require Res CWord.
From Verif.Base Require Import Leak.
From Verif.Spec Require Import Words Client Shape.
From Verif.Model Require Import Buffer Stream Counter Api Library.
From Verif.Model.Leak Require LkStream LkBlake1 LkBlake2 LkFnv LkKeccak LkSipHash.
From Verif.Model Require Import LeakLibrary.
From Verif.Model Require Blake1 Blake2 Fnv Keccak SipHash.
From Verif.Proof Require Import Words Lockstep LeakEqual.
Import ListNotations.

(** objects in the relation behave alike *)
Definition alike_by {C D : HashClass} (L : Leaky (Obj C)) (M : Leaky (Obj D)) (R : Obj C -> Obj D -> Prop) : Prop :=
  R (c_new C) (c_new D) /\
  (forall d e x y, sl d e -> R x y -> ct R (l_add L d x) (l_add M e y)) /\
  (forall x y, R x y -> ct R (l_finalize L x) (l_finalize M y)) /\
  (forall x y, R x y -> R (c_reset C x) (c_reset D y)) /\
  (forall x y, R x y -> ct sl (l_array L x) (l_array M y)).
Definition quiet (C D : HashClass) (L : Leaky (Obj C)) (M : Leaky (Obj D)) : Prop := exists R, alike_by L M R.

Lemma quiet_md B dbg p w w' c c' (iv : list N) a a' : (forall n b c, alike b c -> ct alike (w n b) (w n c)) ->
  (forall m n h k, sl m n -> sl h k -> ct sl (c m h) (c n k)) -> (forall h k, sl h k -> ct sl (a h) (a k)) ->
  quiet (md_class B dbg p w' c' iv a') (md_class B dbg p w' c' iv a') (md_leaky B dbg p w c a) (md_leaky B dbg p w c a).
Proof.
  intros Hw Hc Ha. exists (obj (md_rel sl)). unfold alike_by, md_class, md_leaky; cbn [Obj c_new c_reset l_add l_finalize l_array]. split; [|split; [|split; [|split]]].
  - split; [split; reflexivity|split; reflexivity].
  - intros. apply ct_add; [|assumption|assumption]. intros. now apply ct_md_impl.
  - intros. apply ct_md_fin; [exact Hw| |assumption]. intros. now apply ct_md_impl.
  - intros x y [H _]. split; [apply alike_cleared, H|split; reflexivity].
  - intros x y [_ [_ H]]. apply Ha, H.
Qed.
Lemma quiet_md128 B r dbg c c' (iv : list N) a a' :
  (forall m n h k, sl m n -> sl h k -> ct sl (c m h) (c n k)) -> (forall h k, sl h k -> ct sl (a h) (a k)) ->
  quiet (md128_class B r dbg c' iv a') (md128_class B r dbg c' iv a') (md128_leaky B r dbg c a) (md128_leaky B r dbg c a).
Proof.
  intros Hc Ha. exists (obj (md128_rel sl)). unfold alike_by, md128_class, md128_leaky; cbn [Obj c_new c_reset l_add l_finalize l_array]. split; [|split; [|split; [|split]]].
  - split; [split; reflexivity|split; reflexivity].
  - intros. apply ct_add; [|assumption|assumption]. intros. now apply ct_md128_impl.
  - intros. apply ct_md128_fin; [|assumption]. intros. now apply ct_md128_impl.
  - intros x y [H _]. split; [apply alike_cleared, H|split; reflexivity].
  - intros x y [_ [_ H]]. apply Ha, H.
Qed.
Lemma quiet_blake1 w nb r1 r2 r3 r4 tab F calls K narrow lastbit dbg iv size n :
  quiet (Blake1.cls w nb r1 r2 r3 r4 tab F calls K narrow lastbit dbg iv size n) (Blake1.cls w nb r1 r2 r3 r4 tab F calls K narrow lastbit dbg iv size n)
    (blake1 w nb r1 r2 r3 r4 tab F calls K narrow lastbit dbg size n) (blake1 w nb r1 r2 r3 r4 tab F calls K narrow lastbit dbg size n).
Proof.
  exists (obj (brel K)). unfold alike_by, Blake1.cls, stream_class, blake1, stream_leaky; cbn [Obj c_new c_reset l_add l_finalize l_array]. split; [|split; [|split; [|split]]].
  - split; [split; reflexivity|split; reflexivity].
  - intros. apply ct_add; [|assumption|assumption]. intros. now apply ct_b1_impl.
  - intros. now apply ct_b1_fin.
  - intros x y [H _]. split; [apply alike_cleared, H|split; reflexivity].
  - intros x y [_ H]. apply ct_b1_arr, H.
Qed.
Lemma quiet_blake2 w nb r1 r2 r3 r4 tab F calls K dbg size :
  quiet (Blake2.cls w nb r1 r2 r3 r4 tab F calls K dbg size) (Blake2.cls w nb r1 r2 r3 r4 tab F calls K dbg size)
    (blake2 w nb r1 r2 r3 r4 tab F calls K dbg size) (blake2 w nb r1 r2 r3 r4 tab F calls K dbg size).
Proof.
  exists (obj (brel K)). unfold alike_by, Blake2.cls, blake2; cbn [Obj c_new c_reset l_add l_finalize l_array]. split; [|split; [|split; [|split]]].
  - split; [split; reflexivity|split; reflexivity].
  - intros. apply ct_add2; [|assumption|assumption]. intros. now apply ct_b2_impl.
  - intros. now apply ct_b2_fin.
  - intros x y [H _]. split; [apply alike_cleared, H|split; reflexivity].
  - intros x y [_ H]. apply ct_b2_arr, H.
Qed.
Lemma quiet_keccak R P dbg d : quiet (Keccak.cls R P dbg d) (Keccak.cls R P dbg d) (keccak R P dbg) (keccak R P dbg).
Proof.
  exists (obj krel). unfold alike_by, Keccak.cls, keccak; cbn [Obj c_new c_reset l_add l_finalize l_array]. split; [|split; [|split; [|split]]].
  - split; [split; reflexivity|repeat apply conj; reflexivity].
  - intros. apply ct_add; [|assumption|assumption]. intros. now apply ct_kc_impl.
  - intros. now apply ct_kc_fin.
  - intros x y [H (_ & _ & K)]. split; [apply alike_cleared, H|]. repeat apply conj; [reflexivity|reflexivity|exact K].
  - intros x y [_ (_ & H & _)]. apply ct_ok, H.
Qed.
Lemma quiet_fnv size v : quiet (Fnv.cls size v) (Fnv.cls size v) (fnv size v) (fnv size v).
Proof.
  exists any. unfold alike_by, Fnv.cls, fnv; cbn [Obj c_new c_reset l_add l_finalize l_array]. split; [|split; [|split; [|split]]]; try (intros; exact I).
  - intros. now apply ct_fnv.
  - intros. apply ct_ok. exact I.
  - intros. apply ct_store. unfold sl. now rewrite !bytes_be.
Qed.
Lemma quiet_sip dbg k0 k1 l0 l1 : quiet (class (Library.SipHash k0 k1) dbg) (class (Library.SipHash l0 l1) dbg) (leaky (Library.SipHash k0 k1) dbg) (leaky (Library.SipHash l0 l1) dbg).
Proof.
  exists (obj any). unfold alike_by. cbn [class leaky SipHash.cls Obj c_new c_reset l_add l_finalize l_array]. split; [|split; [|split; [|split]]].
  - split; [split; reflexivity|exact I].
  - intros. apply ct_add; [|assumption|assumption]. intros. now apply ct_sip_impl.
  - intros. now apply ct_sip_fin.
  - intros x y [H _]. split; [|exact I]. unfold SipHash.reset. destruct x as [b s], y as [c t]. cbn [fst] in *. apply alike_cleared, H.
  - intros. apply ct_sip_arr.
Qed.

(** the same class, or SipHash with two keys *)
Inductive kin : alg -> alg -> Prop :=
| kin_same a : kin a a
| kin_key k0 k1 l0 l1 : kin (Library.SipHash k0 k1) (Library.SipHash l0 l1).

Ltac arr := intros; solve [apply ct_store, sl_le; assumption|apply ct_store, sl_be; assumption|apply ct_store, sl_be, sl_first; assumption].
Theorem quiet_all a b dbg : tabled a = false -> kin a b -> quiet (class a dbg) (class b dbg) (leaky a dbg) (leaky b dbg).
Proof.
  intros T K. revert T. destruct K as [c|]; intros T; [|apply quiet_sip]. destruct c; try discriminate T; clear T.
  1-4: apply quiet_blake1.
  1-2: apply quiet_blake2.
  1-6: apply quiet_fnv.
  1: apply quiet_md; [exact ct_len_le|exact ct_has|arr].
  1: apply quiet_md; [exact ct_len_le|exact ct_md4|arr].
  1: apply quiet_md; [exact ct_len_le|exact ct_md5|arr].
  1: apply quiet_md; [exact ct_len_le|exact ct_rmd128|arr].
  1: apply quiet_md; [exact ct_len_le|exact ct_rmd160|arr].
  1: apply quiet_md; [exact ct_len_le|exact ct_rmd256|arr].
  1: apply quiet_md; [exact ct_len_le|exact ct_rmd320|arr].
  1: apply quiet_md; [exact ct_len_be|exact ct_sha1|arr].
  1-2: apply quiet_md; [exact ct_len_be|intros; now apply ct_sha2|arr].
  1-2: apply quiet_md128; [intros; now apply ct_sha2|arr].
  1: apply quiet_md128; [intros; now apply ct_sha2|exact ct_sha2_arr224].
  1: apply quiet_md128; [intros; now apply ct_sha2|arr].
  1-6: apply quiet_keccak.
  1: apply quiet_sip.
  apply quiet_md; [exact ct_len_be|exact ct_sm3|arr].
Qed.

Section Run.
  Variables (C D : HashClass) (L : Leaky (Obj C)) (M : Leaky (Obj D)) (R : Obj C -> Obj D -> Prop).
  Hypothesis H : alike_by L M R.
  Definition one (u : Obj C * option obs) (v : Obj D * option obs) : Prop := R (fst u) (fst v).
  Lemma ct_op o q x y : same_op o q -> o <> ToString -> R x y -> ct one (run_op C L o x) (run_op D M q y).
  Proof using H.
    intros S N K. destruct H as (_ & Ha & Hf & Hr & Hv).
    assert (V : forall f g, (forall d e, sl d e -> ct one (f d) (g e)) -> ct one (bind (l_array L x) f) (bind (l_array M y) g)) by (intros f g Q; eapply ct_bind; [apply Hv, K|exact Q]).
    destruct S as [d e Hd|o].
    - eapply (ct_bind R); [now apply Ha|]. intros. apply ct_ok. assumption.
    - destruct o; try congruence; cbn [run_op].
      + eapply (ct_bind R); [apply Ha; [reflexivity|exact K]|]. intros. apply ct_ok. assumption.
      + eapply (ct_bind R); [now apply Hf|]. intros. apply ct_ok. assumption.
      + apply ct_ok. apply Hr, K.
      + apply V. intros. apply ct_ok. exact K.
      + apply V. intros. apply ct_ok. exact K.
      + apply V. intros. eapply ct_bind; [now apply ct_uint|]. intros. apply ct_ok. exact K.
      + apply V. intros. eapply ct_bind; [now apply ct_uint|]. intros. apply ct_ok. exact K.
  Qed.
  Lemma ct_run p q : same_shape p q -> no_text p -> forall s t, (forall i, R (s i) (t i)) -> ct any (run C L p s) (run D M q t).
  Proof using H.
    intros S. induction S as [|c d p q Hcd S IH]; intros T s t K; cbn [run]; [apply ct_ok; exact I|].
    assert (T' : no_text p) by (intros i Hi; apply (T i); now right).
    assert (P : forall i x y, R x y -> forall j, R (put C s i x j) (put D t i y j)) by (intros i x y Hxy j; unfold put; destruct (j =? i); auto).
    destruct Hcd as [i o o' Ho|i j].
    - eapply (ct_bind one); [apply ct_op; [exact Ho| |apply K]|].
      + intros ->. apply (T i). now left.
      + intros u v Huv. eapply ct_bind; [apply IH; [exact T'|apply P, Huv]|]. intros. apply ct_ok. exact I.
    - apply IH; [exact T'|]. apply P, K.
  Qed.
End Run.

(** ** operator==: the number of leading elements that agree *)
Definition turn (i : nat) (b : bool) : list event := [Branch true; Read i; Read i; Branch b].
Lemma get_at {A} (p : list A) x l : Res.aget (p ++ x :: l) (length p) = Res.Ok x.
Proof. unfold Res.aget. rewrite nth_error_app2 by reflexivity. now rewrite Nat.sub_diag. Qed.
Lemma eq_trace l : forall r, length l = length r -> forall p q, length p = length q ->
  trace (eq_loop (length l) (length p) (p ++ l) (q ++ r)) =
  flat_map (fun i => turn i true) (seq (length p) (common l r)) ++ (if common l r =? length l then [Branch false] else turn (length p + common l r) false).
Proof.
  unfold trace. induction l as [|x l IH]; intros [|y r] L p q P; try discriminate L; [reflexivity|]. cbn [length eq_loop]. unfold tell, bind, aget. cbn [fst snd]. rewrite get_at. rewrite P, get_at.
  cbn [fst snd Res.bind app common]. destruct (N.eqb x y) eqn:E; unfold tell; cbn [fst snd]; rewrite ?E.
  - cbn [seq flat_map app turn]. f_equal. f_equal. f_equal. f_equal. specialize (IH r (eq_add_S _ _ L) (p ++ [x]) (q ++ [y])). rewrite !app_length in IH. cbn [length] in IH.
    rewrite <- !app_assoc in IH. cbn [app] in IH. rewrite Nat.add_1_r in IH. rewrite P in IH. rewrite IH by lia. change (S (common l r) =? S (length l)) with (common l r =? length l).
    now replace (length q + S (common l r)) with (S (length q) + common l r) by lia.
  - cbn [seq flat_map app turn Nat.eqb]. now rewrite Nat.add_0_r.
Qed.
Lemma common_le l : forall r, common l r <= length l.
Proof. induction l as [|x l IH]; intros [|y r]; cbn; try lia. destruct (N.eqb x y); [|lia]. specialize (IH r). lia. Qed.
Lemma turns_length n : forall i, length (flat_map (fun i => turn i true) (seq i n)) = 4 * n.
Proof. induction n as [|n IH]; intros i; [reflexivity|]. cbn [seq flat_map]. rewrite app_length, IH. cbn. lia. Qed.
Theorem eq_shows l r l' r' : length l = length r -> length l' = length l -> length r' = length l ->
  trace (eq_loop (length l) 0 l r) = trace (eq_loop (length l) 0 l' r') <-> common l r = common l' r'.
Proof.
  intros H1 H2 H3. pose proof (eq_trace l r H1 [] [] eq_refl) as E. pose proof (eq_trace l' r' ltac:(congruence) [] [] eq_refl) as E'. cbn [app length] in E, E'. rewrite H2 in E'. rewrite E, E'. clear E E'.
  pose proof (common_le l r) as C. pose proof (common_le l' r') as C'. rewrite H2 in C'. revert C C'. generalize (length l) (common l r) (common l' r'). clear. intros n a b Ha Hb. cbn [Nat.add].
  split; [|now intros ->]. intros E. apply (f_equal (@length event)) in E. rewrite !app_length, !turns_length in E.
  destruct (a =? n) eqn:Ea, (b =? n) eqn:Eb; cbn [length turn] in E; rewrite ?Nat.eqb_eq, ?Nat.eqb_neq in *; lia.
Qed.

(** ** toString(): which hexadecimal digits are letters *)
Definition nibbles_trace (d : list N) : list event := flat_map (fun b => [Branch true; Branch (b / 16 <? 10)%N; Branch (b mod 16 <? 10)%N]) d ++ [Branch false].
Lemma hex_run x : LkStream.hex_digit x = ([Branch (x <? 10)%N], Res.Ok (hex_digit x)).
Proof. unfold LkStream.hex_digit, hex_digit, tell, Ok. destruct (x <? 10)%N; reflexivity. Qed.
Lemma nibble_hi b : (b < 256)%N -> CWord.ror 8 b 4 = (b / 16)%N.
Proof. intros H. rewrite ror_spec. change (2 ^ 4)%N with 16%N. rewrite N.mod_small; [reflexivity|]. change (2 ^ 8)%N with 256%N. apply N.div_lt_upper_bound; lia. Qed.
Lemma nibble_lo b : N.land b 15 = (b mod 16)%N.
Proof. change 15%N with (N.ones 4). now rewrite N.land_ones. Qed.
Lemma text_trace d : d <> [] -> Forall (fun b => (b < 256)%N) d -> trace (LkStream.to_string d) = nibbles_trace d.
Proof.
  intros Hd Hb. unfold LkStream.to_string. destruct d as [|x d]; [congruence|]. revert Hb. generalize (x :: d) as l. clear Hd x d. intros l Hb.
  set (f := fun c s => _). enough (K : forall s, fst (foldM f l s) = nibbles_trace l) by apply K. induction Hb as [|c l Hc Hb IH]; intros s; cbn [foldM]; [reflexivity|].
  unfold tell. cbn [fst]. unfold nibbles_trace. cbn [flat_map app]. f_equal. unfold f at 1. rewrite !hex_run, nibble_hi, nibble_lo by exact Hc. unfold bind at 1 2 3. cbn [fst snd Res.bind app Ok].
  f_equal. f_equal. apply IH.
Qed.
Theorem text_shows d e : d <> [] -> length d = length e -> Forall (fun b => (b < 256)%N) d -> Forall (fun b => (b < 256)%N) e ->
  trace (LkStream.to_string d) = trace (LkStream.to_string e) <-> letters d = letters e.
Proof.
  intros Hd L Bd Be. assert (He : e <> []) by (intros ->; now destruct d). rewrite !text_trace by assumption. clear Hd He Bd Be. revert e L. unfold nibbles_trace, letters.
  assert (K : forall x, N.leb 10 x = negb (x <? 10)%N) by (intros x; now rewrite N.ltb_antisym, negb_involutive).
  induction d as [|b d IH]; intros [|c e] L; try discriminate L; [now split|]. cbn [flat_map app]. specialize (IH e (eq_add_S _ _ L)). rewrite !K. split.
  - intros [= E1 E2 E]. apply IH in E. now rewrite E1, E2, E.
  - intros [= E1 E2 E]. apply IH in E. apply (f_equal negb) in E1, E2. rewrite !negb_involutive in E1, E2. now rewrite E1, E2, E.
Qed.
