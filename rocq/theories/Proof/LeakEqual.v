(** Two runs on data of the same sizes show the same indices and branches, for the code whose indices and branches come
    from constants, sizes and counters. *)
From Coq Require Import List NArith ZArith Arith Bool.
From Verif.Base Require Res CWord.
From Verif.Base Require Import Leak.
From Verif.Spec Require Import Client Shape.
From Verif.Model Require Import Buffer Stream Counter Call Api Library.
From Verif.Model Require Keccak SipHash.
From Verif.Model.Leak Require Import LkBuffer LkStream LkCall LkBlakeMix.
From Verif.Model.Leak Require LkBlake1 LkBlake2 LkFnv LkHas160 LkKeccak LkMd4 LkMd5 LkRipemd LkSha1 LkSha2 LkSipHash LkSm3.
From Verif.Model Require LeakLibrary.
From Verif.Proof Require Import Lockstep.
Import ListNotations.

(** the same trace; then both fail alike, or both deliver related results *)
Definition rel {A B} (R : A -> B -> Prop) (x : Res.res A) (y : Res.res B) : Prop :=
  match x, y with
  | Res.Ok a, Res.Ok b => R a b
  | Res.Throw e, Res.Throw f => e = f
  | Res.Ub u, Res.Ub v => u = v
  | _, _ => False
  end.
Definition ct {A B} (R : A -> B -> Prop) (x : res A) (y : res B) : Prop := fst x = fst y /\ rel R (snd x) (snd y).
Definition any {A B} (_ : A) (_ : B) : Prop := True.
Definition sl {A B} (l : list A) (r : list B) : Prop := length l = length r.

Lemma ct_ok {A B} (R : A -> B -> Prop) a b : R a b -> ct R (Ok a) (Ok b).
Proof. intros H. split; [reflexivity|exact H]. Qed.
Lemma ct_throw {A B} (R : A -> B -> Prop) e : ct R (Throw e) (Throw e).
Proof. split; reflexivity. Qed.
Lemma ct_ub {A B} (R : A -> B -> Prop) u : ct R (Ub u) (Ub u).
Proof. split; reflexivity. Qed.
Lemma ct_tell {A B} (R : A -> B -> Prop) e x y : ct R x y -> ct R (tell e x) (tell e y).
Proof. intros [H K]. split; [cbn; now rewrite H|exact K]. Qed.
Lemma ct_bind {A B C D} (R : A -> B -> Prop) (Q : C -> D -> Prop) x y f g :
  ct R x y -> (forall a b, R a b -> ct Q (f a) (g b)) -> ct Q (bind x f) (bind y g).
Proof.
  intros [H K] L. unfold ct, bind. cbn [fst snd]. rewrite H. destruct (snd x) as [a| |], (snd y) as [b| |]; cbn in K; try contradiction; cbn [Res.bind].
  - destruct (L a b K) as [L1 L2]. split; [now rewrite L1|exact L2].
  - split; [reflexivity|exact K].
  - split; [reflexivity|exact K].
Qed.
Lemma ct_same {A C D} (Q : C -> D -> Prop) (x : res A) f g : (forall a, ct Q (f a) (g a)) -> ct Q (bind x f) (bind x g).
Proof. intros L. apply (ct_bind eq); [|intros a ? <-; apply L]. split; [reflexivity|]. destruct (snd x); reflexivity. Qed.
Lemma ct_for {S T} (R : S -> T -> Prop) f g : (forall i s t, R s t -> ct R (f i s) (g i t)) -> forall n i s t, R s t -> ct R (for_ i n f s) (for_ i n g t).
Proof. intros H n. induction n as [|n IH]; intros i s t K; cbn [for_]; apply ct_tell; [now apply ct_ok|]. eapply ct_bind; [apply H, K|auto]. Qed.
Lemma ct_fold {A B S T} (P : A -> B -> Prop) (R : S -> T -> Prop) f g : (forall a b s t, P a b -> R s t -> ct R (f a s) (g b t)) ->
  forall l r, Forall2 P l r -> forall s t, R s t -> ct R (foldM f l s) (foldM g r t).
Proof. intros H l r F. induction F as [|a b l r Hab F IH]; intros s t K; cbn [foldM]; apply ct_tell; [now apply ct_ok|]. eapply ct_bind; [apply (H _ _ _ _ Hab K)|auto]. Qed.
Lemma ct_fold_same {A S T} (R : S -> T -> Prop) f g : (forall (a : A) s t, R s t -> ct R (f a s) (g a t)) -> forall l s t, R s t -> ct R (foldM f l s) (foldM g l t).
Proof. intros H l. apply (ct_fold eq); [intros a ? s t <-; apply H|]. induction l; constructor; auto. Qed.
Lemma ct_fold_sl {A S T} (R : S -> T -> Prop) f g : (forall (a b : A) s t, R s t -> ct R (f a s) (g b t)) -> forall l r s t, sl l r -> R s t -> ct R (foldM f l s) (foldM g r t).
Proof. intros H l r s t L. apply (ct_fold (fun _ _ => True)); [auto|]. now apply same_length. Qed.
Lemma ct_map {A C} (f g : A -> res C) : (forall a, ct any (f a) (g a)) -> forall l, ct sl (mapM f l) (mapM g l).
Proof.
  intros H l. induction l as [|a l IH]; cbn [mapM]; [apply ct_ok; reflexivity|]. eapply ct_bind; [apply H|]. intros x y _. eapply ct_bind; [apply IH|].
  intros u v E. apply ct_ok. unfold sl in *. cbn. now rewrite E.
Qed.
Lemma ct_get {A B} (l : list A) (r : list B) i : sl l r -> ct any (aget l i) (aget r i).
Proof.
  intros E. apply ct_tell. split; [reflexivity|]. cbn [snd]. unfold Res.aget. unfold sl in E.
  destruct (nth_error l i) eqn:E1, (nth_error r i) eqn:E2; cbn; try exact I; try reflexivity.
  - apply nth_error_None in E2. rewrite <- E in E2. apply nth_error_None in E2. congruence.
  - apply nth_error_None in E1. rewrite E in E1. apply nth_error_None in E1. congruence.
Qed.
Lemma ct_back {A B} (l : list A) (r : list B) i k : sl l r -> ct any (aget_back l i k) (aget_back r i k).
Proof.
  intros E. apply ct_tell. split; [reflexivity|]. cbn [snd]. unfold Res.aget_back. destruct (i <? k); [reflexivity|]. exact (proj2 (ct_get l r (i - k) E)).
Qed.
Lemma ct_set {A B} (l : list A) (r : list B) i v w : sl l r -> ct sl (aset l i v) (aset r i w).
Proof.
  intros E. apply ct_tell. split; [reflexivity|]. cbn [snd]. unfold Res.aset. unfold sl in *. rewrite E. destruct (i <? length r); [|reflexivity].
  cbn. unfold sl. now rewrite !Res.upd_length.
Qed.
Global Hint Resolve ct_ok ct_throw ct_ub ct_get ct_back ct_set : ct.

Lemma sl_refl {A} (l : list A) : sl l l. Proof. reflexivity. Qed.
Lemma sl_app {A B} (a c : list A) (b d : list B) : sl a b -> sl c d -> sl (a ++ c) (b ++ d).
Proof. unfold sl. intros H K. now rewrite !app_length, H, K. Qed.
Lemma sl_cons {A B} (x : A) (y : B) l r : sl l r -> sl (x :: l) (y :: r).
Proof. unfold sl. intros H. cbn. now rewrite H. Qed.
Lemma sl_skip {A B} n (l : list A) (r : list B) : sl l r -> sl (skipn n l) (skipn n r).
Proof. unfold sl. intros H. now rewrite !skipn_length, H. Qed.
Lemma sl_first {A B} n (l : list A) (r : list B) : sl l r -> sl (firstn n l) (firstn n r).
Proof. unfold sl. intros H. now rewrite !firstn_length, H. Qed.
Lemma sl_flat {A B} (f g : A -> list B) n : (forall a, length (f a) = n) -> (forall a, length (g a) = n) -> forall l r, sl l r -> sl (flat_map f l) (flat_map g r).
Proof. intros Hf Hg l. induction l as [|a l IH]; intros [|b r] E; try discriminate E; [reflexivity|]. cbn [flat_map]. apply sl_app; [unfold sl; now rewrite Hf, Hg|]. apply IH. now injection E. Qed.
Lemma any_i {A B} (a : A) (b : B) : any a b. Proof. exact I. Qed.
Global Hint Resolve sl_refl sl_app sl_cons sl_skip sl_first any_i : ct.

Ltac ct_step :=
  intros;
  lazymatch goal with
  | |- ct _ (tell (Branch ?c) (if ?c then _ else _)) (tell (Branch ?c) (if ?c then _ else _)) => apply ct_tell; destruct c
  | |- ct _ (tell _ _) (tell _ _) => apply ct_tell
  | |- ct _ (bind ?x _) (bind ?x _) => apply ct_same
  | |- ct _ (bind _ _) (bind _ _) => eapply ct_bind
  | |- ct _ (for_ _ _ _ _) _ => apply ct_for
  | |- ct _ (foldM _ ?l _) (foldM _ ?l _) => apply ct_fold_same
  | |- ct _ (foldM _ _ _) (foldM _ _ _) => apply ct_fold_sl
  | |- ct _ (mapM _ ?l) (mapM _ ?l) => apply ct_map
  | |- _ => solve [eauto 10 with ct]
  end.
Ltac ct := repeat ct_step.

(** ** buffers *)
Lemma ct_check dbg n b c : alike b c -> ct (@any unit unit) (buf_check dbg n b) (buf_check dbg n c).
Proof. intros [H1 H2]. unfold buf_check. rewrite H1, H2. ct. Qed.
Lemma ct_put v w b c : alike b c -> ct alike (buf_put v b) (buf_put w c).
Proof. intros [H1 H2]. unfold buf_put. rewrite H1. eapply ct_bind; [apply ct_set, H2|]. intros. apply ct_ok. split; [reflexivity|assumption]. Qed.
Global Hint Resolve ct_check ct_put : ct.
Lemma ct_fill dbg v w n b c : alike b c -> ct alike (buf_fill dbg v n b) (buf_fill dbg w n c).
Proof. intros H. unfold buf_fill. eapply ct_bind; [apply ct_check, H|]. intros. apply ct_for; [intros; now apply ct_put|exact H]. Qed.
Global Hint Resolve ct_fill : ct.
Lemma ct_push dbg d e b c : sl d e -> alike b c -> ct alike (buf_push_back dbg d b) (buf_push_back dbg e c).
Proof. intros L H. unfold buf_push_back. ct. Qed.
Lemma ct_range dbg n d e : sl d e -> ct alike (buf_of_range dbg n d) (buf_of_range dbg n e).
Proof. intros L. unfold buf_of_range. apply ct_fold_sl; [|exact L|apply alike_new]. ct. Qed.
Lemma ct_setend k i v w b c : alike b c -> ct alike (buf_set_from_end k i v b) (buf_set_from_end k i w c).
Proof.
  intros [H1 H2]. unfold buf_set_from_end. rewrite H1. apply ct_tell. destruct (_ <? _); [apply ct_ub|]. eapply ct_bind; [apply ct_set, H2|]. intros. apply ct_ok. split; [reflexivity|assumption].
Qed.
Lemma ct_getend k b c : alike b c -> ct any (buf_get_from_end k b) (buf_get_from_end k c).
Proof. intros [H1 H2]. unfold buf_get_from_end. rewrite H1. apply ct_tell. destruct (_ <? _); [apply ct_ub|]. apply ct_get, H2. Qed.
Lemma ct_first n d e : sl d e -> ct sl (span_first n d) (span_first n e).
Proof. intros L. unfold span_first. rewrite L. ct. Qed.
Lemma ct_sub n d e : sl d e -> ct sl (span_subspan n d) (span_subspan n e).
Proof. intros L. unfold span_subspan. rewrite L. ct. Qed.
Lemma sl_span b c : alike b c -> sl (buf_span b) (buf_span c).
Proof. apply alike_span. Qed.
Global Hint Resolve ct_push ct_range ct_setend ct_getend ct_first ct_sub sl_span : ct.

(** ** addData *)
Section Add.
  Context {St : Type} (B cap : nat) (dbg : bool) (R : St -> St -> Prop) (impl : list N -> St -> res St).
  Hypothesis H : forall d e s t, sl d e -> R s t -> ct R (impl d s) (impl e t).
  Definition obj (o p : Buffer * St) : Prop := alike (fst o) (fst p) /\ R (snd o) (snd p).
  Lemma obj_i b c s t : alike b c -> R s t -> obj (b, s) (c, t).
  Proof using Type. intros; split; assumption. Qed.
  Hint Resolve obj_i : ct.
  Lemma ct_tail d e b c s t : sl d e -> alike b c -> R s t -> ct obj (LkStream.addData_tail St B cap dbg impl d b s) (LkStream.addData_tail St B cap dbg impl e c t).
  Proof using H. intros L K Q. unfold LkStream.addData_tail. rewrite L. cbv zeta. ct. Qed.
  Hint Resolve ct_tail : ct.
  Lemma ct_add d e o p : sl d e -> obj o p -> ct obj (LkStream.addData St B cap dbg impl d o) (LkStream.addData St B cap dbg impl e p).
  Proof using H.
    destruct o as [b s], p as [c t]. intros L [K Q]. cbn [fst snd] in *. pose proof K as [K1 K2]. unfold LkStream.addData, buf_empty, buf_size. rewrite K1, L.
    set (n := if b_end c <=? B then _ else _). apply ct_tell. destruct (negb _); [|ct].
    eapply ct_bind; [apply ct_push; [apply sl_first, L|exact K]|]. intros x y Hxy. pose proof Hxy as [E1 E2]. rewrite E1. apply ct_tell. destruct (b_end y <? B); [ct|].
    eapply ct_bind; [apply H; [apply sl_span, Hxy|exact Q]|]. intros s' t' Q'. rewrite (alike_clear x y Hxy). eapply ct_bind; [apply ct_sub, L|].
    intros u v L'. apply ct_tail; [exact L'|split; reflexivity|exact Q'].
  Qed.
  Lemma ct_tail2 d e s t : sl d e -> R s t -> ct obj (LkBlake2.addData_tail St B dbg impl d s) (LkBlake2.addData_tail St B dbg impl e t).
  Proof using H. intros L Q. unfold LkBlake2.addData_tail. rewrite L. set (r := if negb _ then _ else _). cbv zeta. ct. Qed.
  Hint Resolve ct_tail2 : ct.
  Lemma ct_rec n : forall d e o p, sl d e -> obj o p -> ct obj (LkBlake2.addData_rec St B dbg impl n d o) (LkBlake2.addData_rec St B dbg impl n e p).
  Proof using H.
    induction n as [|n IH]; intros d e [b s] [c t] L Ho; cbn [LkBlake2.addData_rec]; [apply ct_ub|].
    destruct d as [|d0 d], e as [|e0 e]; try discriminate L; [now apply ct_ok|]. destruct Ho as [K Q]. cbn [fst snd] in K, Q. pose proof K as [K1 K2]. unfold buf_empty, buf_size.
    rewrite K1, L. generalize dependent (d0 :: d). generalize dependent (e0 :: e). clear d0 e0 d e. intros e d L. apply ct_tell. destruct (b_end c =? B); [ct|].
    apply ct_tell. destruct (negb _); [|ct]. cbv zeta. eapply ct_bind; [apply ct_push; [apply sl_first, L|exact K]|]. intros x y Hxy. eapply ct_bind; [apply ct_sub, L|].
    intros u v L'. apply IH; [exact L'|split; assumption].
  Qed.
  Lemma ct_add2 d e o p : sl d e -> obj o p -> ct obj (LkBlake2.addData St B dbg impl d o) (LkBlake2.addData St B dbg impl e p).
  Proof using H. apply ct_rec. Qed.
End Add.

(** ** blocks, padding, read-out *)
Lemma ct_aligned B dbg d e : sl d e -> ct (@any unit unit) (assert_aligned B dbg d) (assert_aligned B dbg e).
Proof. intros L. unfold assert_aligned. rewrite L. ct. Qed.
Lemma ct_loop {H} (R : H -> H -> Prop) B c d e h k : (forall m n h k, sl m n -> R h k -> ct R (c m h) (c n k)) -> sl d e -> R h k -> ct R (block_loop H B c d h) (block_loop H B c e k).
Proof. intros K L Q. unfold block_loop. rewrite L. apply ct_for; [|exact Q]. intros. apply K; [apply sl_skip, L|assumption]. Qed.
Global Hint Resolve ct_aligned : ct.
Lemma ct_bytes n d e i : sl d e -> ct sl (load_bytes n d i) (load_bytes n e i).
Proof. intros L. unfold load_bytes. ct. Qed.
Global Hint Resolve ct_bytes : ct.
Lemma ct_be n d e i : sl d e -> ct any (load_be n d i) (load_be n e i).
Proof. intros L. unfold load_be. ct. Qed.
Lemma ct_le n d e i : sl d e -> ct any (load_le n d i) (load_le n e i).
Proof. intros L. unfold load_le. ct. Qed.
Lemma ct_store n d e : sl d e -> ct sl (store_array n d) (store_array n e).
Proof.
  intros L. unfold store_array. apply (ct_bind (fun x y : list N * nat => sl (fst x) (fst y) /\ snd x = snd y)); [|intros ? ? [K _]; now apply ct_ok].
  apply ct_fold_sl; [|exact L|split; reflexivity]. intros a b [s i] [t j] [K1 K2]. cbn [fst snd] in *. subst j. eapply ct_bind; [apply ct_set, K1|]. intros. apply ct_ok. split; [assumption|reflexivity].
Qed.
Lemma ct_uint n d e : sl d e -> ct any (to_uint n d) (to_uint n e).
Proof. intros L. unfold to_uint. rewrite L. ct. Qed.
Global Hint Resolve ct_be ct_le ct_store ct_uint : ct.
Lemma bytes_be nb x : length (word_bytes_be nb x) = nb.
Proof. unfold word_bytes_be. now rewrite map_length, rev_length, seq_length. Qed.
Lemma bytes_le nb x : length (word_bytes_le nb x) = nb.
Proof. unfold word_bytes_le. now rewrite map_length, seq_length. Qed.
Lemma sl_be nb l r : sl l r -> sl (flat_map (word_bytes_be nb) l) (flat_map (word_bytes_be nb) r).
Proof. apply sl_flat with nb; apply bytes_be. Qed.
Lemma sl_le nb l r : sl l r -> sl (flat_map (word_bytes_le nb) l) (flat_map (word_bytes_le nb) r).
Proof. apply sl_flat with nb; apply bytes_le. Qed.
Global Hint Resolve sl_be sl_le : ct.

(** the length counter is the same, the rest related *)
Definition md_rel {H} (R : H -> H -> Prop) (s t : MD H) : Prop := md_cnt s = md_cnt t /\ R (md_h s) (md_h t).
Definition md128_rel {H} (R : H -> H -> Prop) (s t : MD128 H) : Prop := md8_cnt s = md8_cnt t /\ R (md8_h s) (md8_h t).
Lemma ct_md_impl {H} (R : H -> H -> Prop) B dbg c d e s t : (forall m n h k, sl m n -> R h k -> ct R (c m h) (c n k)) -> sl d e -> md_rel R s t ->
  ct (md_rel R) (md_impl B dbg c d s) (md_impl B dbg c e t).
Proof.
  intros K L [Q1 Q2]. unfold md_impl. rewrite L, Q1. eapply ct_bind; [apply ct_aligned, L|]. intros. eapply ct_bind; [apply (ct_loop R); [exact K|exact L|exact Q2]|].
  intros. apply ct_ok. split; [reflexivity|assumption].
Qed.
Lemma ct_md128_impl {H} (R : H -> H -> Prop) B dbg c d e s t : (forall m n h k, sl m n -> R h k -> ct R (c m h) (c n k)) -> sl d e -> md128_rel R s t ->
  ct (md128_rel R) (md128_impl B dbg c d s) (md128_impl B dbg c e t).
Proof.
  intros K L [Q1 Q2]. unfold md128_impl. rewrite L, Q1. eapply ct_bind; [apply ct_aligned, L|]. intros. eapply ct_bind; [apply (ct_loop R); [exact K|exact L|exact Q2]|].
  intros. apply ct_ok. split; [reflexivity|assumption].
Qed.
Lemma ct_len_be n b c : alike b c -> ct alike (write_len_be n b) (write_len_be n c).
Proof. intros H. unfold write_len_be. cbv zeta. ct. Qed.
Lemma ct_len_le n b c : alike b c -> ct alike (write_len_le n b) (write_len_le n c).
Proof. intros H. unfold write_len_le. cbv zeta. ct. Qed.
Lemma ct_len_128 n b c : alike b c -> ct alike (write_len_be128 n b) (write_len_be128 n c).
Proof. intros H. unfold write_len_be128. ct. Qed.
Lemma alike_cleared b c : alike b c -> alike (buf_clear b) (buf_clear c).
Proof. intros H. rewrite (alike_clear b c H). split; reflexivity. Qed.
Lemma ct_md_fin {H} (R : H -> H -> Prop) B dbg p w i o q : (forall n b c, alike b c -> ct alike (w n b) (w n c)) ->
  (forall d e s t, sl d e -> md_rel R s t -> ct (md_rel R) (i d s) (i e t)) -> obj (md_rel R) o q ->
  ct (obj (md_rel R)) (md_finalize B dbg p w i o) (md_finalize B dbg p w i q).
Proof.
  intros Hw Hi. destruct o as [b s], q as [c t]. intros [K [Q1 Q2]]. cbn [fst snd] in *. unfold md_finalize. cbv zeta. pose proof K as [K1 K2]. unfold buf_size. rewrite K1, Q1.
  eapply ct_bind; [apply ct_fill, K|]. intros x y Hxy. pose proof Hxy as [E1 E2]. rewrite E1. eapply ct_bind; [apply ct_fill, Hxy|]. intros x2 y2 H2. eapply ct_bind; [apply Hw, H2|].
  intros x3 y3 H3. eapply ct_bind; [apply Hi; [apply sl_span, H3|split; [reflexivity|exact Q2]]|]. intros. apply ct_ok. split; [apply alike_cleared, H3|assumption].
Qed.
Lemma ct_md128_fin {H} (R : H -> H -> Prop) B r dbg i o q :
  (forall d e s t, sl d e -> md128_rel R s t -> ct (md128_rel R) (i d s) (i e t)) -> obj (md128_rel R) o q ->
  ct (obj (md128_rel R)) (md128_finalize B r dbg i o) (md128_finalize B r dbg i q).
Proof.
  intros Hi. destruct o as [b s], q as [c t]. intros [K [Q1 Q2]]. cbn [fst snd] in *. unfold md128_finalize. cbv zeta. pose proof K as [K1 K2]. unfold buf_size. rewrite K1, Q1.
  eapply ct_bind; [apply ct_fill, K|]. intros x y Hxy. pose proof Hxy as [E1 E2]. rewrite E1. eapply ct_bind; [apply ct_fill, Hxy|]. intros x2 y2 H2. eapply ct_bind; [apply ct_len_128, H2|].
  intros x3 y3 H3. eapply ct_bind; [apply Hi; [apply sl_span, H3|split; [reflexivity|exact Q2]]|]. intros. apply ct_ok. split; [apply alike_cleared, H3|assumption].
Qed.

(** ** calls with reference parameters: which parameters are assigned does not depend on the values *)
Definition wr (u v : list (nat * N)) : Prop := Forall2 (fun x y : nat * N => fst x = fst y) u v.
Lemma wr_nil : wr [] []. Proof. constructor. Qed.
Lemma wr_cons i x y u v : wr u v -> wr ((i, x) :: u) ((i, y) :: v).
Proof. now constructor. Qed.
Global Hint Resolve wr_nil wr_cons : ct.
Lemma ct_call f g regs r q : (forall u v, sl u v -> ct wr (f u) (g v)) -> sl r q -> ct sl (call_regs f regs r) (call_regs g regs q).
Proof.
  intros H L. unfold call_regs. eapply ct_bind; [apply ct_map; intros; apply ct_get, L|]. intros u v E. eapply ct_bind; [apply H, E|]. intros x y W.
  eapply ct_fold; [|exact W|exact L]. intros [i a] [j b] s t K Hs. cbn [fst snd] in *. subst j. ct.
Qed.
(** a match on the shape of two lists of the same length *)
Lemma sl_inv {A B} (x : A) (y : B) l r : sl (x :: l) (y :: r) -> sl l r.
Proof. unfold sl. cbn. now intros [=]. Qed.
Ltac shape L l r := destruct l, r; first [discriminate L|apply sl_inv in L|idtac].

Lemma ct_mix w a b c d x y x' y' u v : sl u v -> ct wr (blakeMix w a b c d x y u) (blakeMix w a b c d x' y' v).
Proof. intros L. unfold blakeMix. cbv zeta. do 5 (shape L u v; try apply ct_ub). ct. Qed.
Global Hint Resolve ct_call ct_mix ct_len_be ct_len_le ct_len_128 alike_cleared : ct.

(** ** the classes *)
Section Blake.
  Context (w : N) (nb : nat) (r1 r2 r3 r4 : N) (tab : list N) (F : Type) (calls : list (call F)) (K : Counter) (narrow lastbit dbg : bool).
  Definition brel (s t : ctr K * list N) : Prop := fst s = fst t /\ sl (snd s) (snd t).
  Lemma ct_b1_call m n c v u : sl m n -> sl v u -> ct sl (LkBlake1.exec_call w nb r1 r2 r3 r4 tab F m c v) (LkBlake1.exec_call w nb r1 r2 r3 r4 tab F n c u).
  Proof. intros L M. unfold LkBlake1.exec_call. destruct (c_args c) as [|x [|y [|a [|b [|]]]]]; try apply ct_ub. ct. Qed.
  Hint Resolve ct_b1_call : ct.
  Lemma ct_b1_compress p m n s t : sl m n -> brel s t ->
    ct brel (LkBlake1.compress w nb r1 r2 r3 r4 tab F calls K narrow p m s) (LkBlake1.compress w nb r1 r2 r3 r4 tab F calls K narrow p n t).
  Proof.
    destruct s as [c h], t as [d k]. intros L [E M]. cbn [fst snd] in *. subst d. unfold LkBlake1.compress. cbv zeta.
    eapply ct_bind; [apply ct_map; intros; apply ct_get, M|]. intros hs ks Hs. apply ct_same. intros cs.
    assert (V : sl (hs ++ cs) (ks ++ cs)) by auto with ct. revert V. generalize (hs ++ cs) (ks ++ cs). clear hs ks Hs cs. intros v u V.
    eapply (ct_bind sl); [ct|]. intros v' u' V'. eapply (ct_bind sl); [ct|]. intros v2 u2 V2. eapply (ct_bind sl); [ct|]. intros h' k' H'. apply ct_ok. split; [reflexivity|exact H'].
  Qed.
  Lemma ct_b1_impl p d e s t : sl d e -> brel s t ->
    ct brel (LkBlake1.impl w nb r1 r2 r3 r4 tab F calls K narrow dbg p d s) (LkBlake1.impl w nb r1 r2 r3 r4 tab F calls K narrow dbg p e t).
  Proof. intros L Q. unfold LkBlake1.impl. eapply ct_bind; [apply ct_aligned, L|]. intros. apply (ct_loop brel); [|exact L|exact Q]. intros. now apply ct_b1_compress. Qed.
  Lemma ct_b1_last b c : alike b c -> ct alike (LkBlake1.set_lastbit nb lastbit b) (LkBlake1.set_lastbit nb lastbit c).
  Proof. intros H. unfold LkBlake1.set_lastbit. ct. Qed.
  Lemma ct_b1_len l h b c : alike b c -> ct alike (LkBlake1.write_len nb l h b) (LkBlake1.write_len nb l h c).
  Proof. intros H. unfold LkBlake1.write_len. ct. Qed.
  Lemma ct_b1_fin o q : obj brel o q -> ct (obj brel) (LkBlake1.finalize w nb r1 r2 r3 r4 tab F calls K narrow lastbit dbg o) (LkBlake1.finalize w nb r1 r2 r3 r4 tab F calls K narrow lastbit dbg q).
  Proof.
    destruct o as [b s], q as [c t]. intros [A Q]. cbn [fst snd] in *. unfold LkBlake1.finalize. cbv zeta. pose proof A as [K1 K2]. unfold buf_size. rewrite K1, (proj1 Q).
    eapply ct_bind; [apply ct_fill, A|]. intros x y Hxy. rewrite (proj1 Hxy). eapply ct_bind; [apply ct_fill, Hxy|]. intros x2 y2 H2. eapply ct_bind; [apply ct_b1_last, H2|].
    intros x3 y3 H3. eapply ct_bind; [apply ct_b1_len, H3|]. intros x4 y4 H4. eapply ct_bind; [apply ct_b1_impl; [apply sl_span, H4|exact Q]|].
    intros. apply ct_ok. split; [apply alike_cleared, H4|assumption].
  Qed.
  Lemma ct_b1_arr a n s t : brel s t -> ct sl (LkBlake1.toArray nb K a n s) (LkBlake1.toArray nb K a n t).
  Proof. intros [_ H]. apply ct_store, sl_be, sl_first, H. Qed.

  Lemma ct_b2_call m n c v u : sl m n -> sl v u -> ct sl (LkBlake2.exec_call w nb r1 r2 r3 r4 F m c v) (LkBlake2.exec_call w nb r1 r2 r3 r4 F n c u).
  Proof. intros L M. unfold LkBlake2.exec_call. destruct (c_args c) as [|x [|y [|]]]; try apply ct_ub. ct. Qed.
  Hint Resolve ct_b2_call : ct.
  Lemma ct_b2_compress f p m n s t : sl m n -> brel s t ->
    ct brel (LkBlake2.compress w nb r1 r2 r3 r4 tab F calls K f p m s) (LkBlake2.compress w nb r1 r2 r3 r4 tab F calls K f p n t).
  Proof.
    destruct s as [c h], t as [d k]. intros L [E M]. cbn [fst snd] in *. subst d. unfold LkBlake2.compress. cbv zeta.
    eapply ct_bind; [apply ct_map; intros; apply ct_get, M|]. intros hs ks Hs. do 5 (apply ct_same; intros).
    eapply (ct_bind sl); [apply ct_fold_same; [intros; now apply ct_b2_call|apply sl_app; [exact Hs|apply sl_refl]]|]. intros v2 u2 V2.
    eapply (ct_bind sl); [ct|]. intros h' k' H'. apply ct_ok. split; [reflexivity|exact H'].
  Qed.
  Lemma ct_b2_impl f p d e s t : sl d e -> brel s t ->
    ct brel (LkBlake2.impl w nb r1 r2 r3 r4 tab F calls K dbg f p d s) (LkBlake2.impl w nb r1 r2 r3 r4 tab F calls K dbg f p e t).
  Proof. intros L Q. unfold LkBlake2.impl. eapply ct_bind; [apply ct_aligned, L|]. intros. apply (ct_loop brel); [|exact L|exact Q]. intros. now apply ct_b2_compress. Qed.
  Lemma ct_b2_fin o q : obj brel o q -> ct (obj brel) (LkBlake2.finalize w nb r1 r2 r3 r4 tab F calls K dbg o) (LkBlake2.finalize w nb r1 r2 r3 r4 tab F calls K dbg q).
  Proof.
    destruct o as [b s], q as [c t]. intros [A Q]. cbn [fst snd] in *. unfold LkBlake2.finalize. cbv zeta. pose proof A as [K1 K2]. unfold buf_size. rewrite K1.
    eapply ct_bind; [apply ct_fill, A|]. intros x y Hxy. eapply ct_bind; [apply ct_b2_impl; [apply sl_span, Hxy|exact Q]|].
    intros. apply ct_ok. split; [apply alike_cleared, Hxy|assumption].
  Qed.
  Lemma ct_b2_arr a s t : brel s t -> ct sl (LkBlake2.toArray nb K a s) (LkBlake2.toArray nb K a t).
  Proof. intros [_ H]. apply ct_store, sl_le, H. Qed.
End Blake.

Lemma ct_fnv size v d e h k : sl d e -> ct any (LkFnv.addDataImpl size v d h) (LkFnv.addDataImpl size v e k).
Proof. intros L. unfold LkFnv.addDataImpl. apply ct_fold_sl; [|exact L|exact I]. intros. apply ct_ok. exact I. Qed.

(** HAS-160: the entries of xTable may be unset, the same ones in both runs *)
Definition both_set (x y : option N) : Prop := match x, y with Some _, Some _ | None, None => True | _, _ => False end.
Definition tab (x y : list (option N)) : Prop := Forall2 both_set x y.
Lemma tab_upd x y : tab x y -> forall i v w, tab (Res.upd x i (Some v)) (Res.upd y i (Some w)).
Proof. intros H. induction H as [|a b x y Hab H IH]; intros [|i] v w; cbn [Res.upd]; constructor; auto; try exact I. apply IH. Qed.
Lemma tab_sl x y : tab x y -> sl x y.
Proof. intros H. induction H; [reflexivity|]. now apply sl_cons. Qed.
Lemma ct_tab_set x y i v w : tab x y -> ct tab (aset x i (Some v)) (aset y i (Some w)).
Proof.
  intros H. apply ct_tell. split; [reflexivity|]. cbn [snd]. unfold Res.aset. rewrite (tab_sl x y H). destruct (i <? length y); [|reflexivity]. now apply tab_upd.
Qed.
Lemma tab_nth x y : tab x y -> forall i, match nth_error x i, nth_error y i with Some a, Some b => both_set a b | None, None => True | _, _ => False end.
Proof. intros H. induction H as [|a b x y Hab H IH]; intros [|i]; cbn [nth_error]; [exact I|exact I|exact Hab|apply IH]. Qed.
Lemma ct_tab_get x y i : tab x y -> ct any (iget x i) (iget y i).
Proof.
  intros H. apply ct_tell. split; [reflexivity|]. cbn [snd]. unfold Res.iget, Res.aget. pose proof (tab_nth x y H i) as K.
  destruct (nth_error x i) as [[a|]|], (nth_error y i) as [[b|]|]; cbn in *; try contradiction; try exact I; reflexivity.
Qed.
Lemma tab_refl x : tab x x.
Proof. induction x as [|[a|] x IH]; constructor; auto; exact I. Qed.
Global Hint Resolve ct_tab_set ct_tab_get tab_refl : ct.
Lemma ct_has_look x y i : tab x y -> ct any (LkHas160.look x i) (LkHas160.look y i).
Proof. intros H. unfold LkHas160.look. ct. Qed.
Global Hint Resolve ct_has_look : ct.
Lemma ct_has_fill m n : sl m n -> ct tab (LkHas160.fill_table m) (LkHas160.fill_table n).
Proof. intros H. unfold LkHas160.fill_table. ct. Qed.
Lemma ct_has_xor x y i : tab x y -> ct any (LkHas160.xor4 x i) (LkHas160.xor4 y i).
Proof. intros H. unfold LkHas160.xor4. ct. Qed.
Global Hint Resolve ct_has_fill ct_has_xor : ct.
Lemma ct_has_extend r x y : tab x y -> ct tab (LkHas160.extendTable r x) (LkHas160.extendTable r y).
Proof. intros H. unfold LkHas160.extendTable. ct. Qed.
Lemma ct_has_round x y F k r s t u v : tab x y -> sl u v -> ct wr (LkHas160.round x F k r s t u) (LkHas160.round y F k r s t v).
Proof. intros H L. unfold LkHas160.round. cbv zeta. do 6 (shape L u v; try apply ct_ub). ct. Qed.
Global Hint Resolve ct_has_extend ct_has_round : ct.
Definition hrel (s t : list N * list (option N)) : Prop := sl (fst s) (fst t) /\ tab (snd s) (snd t).
Lemma ct_has_call c s t : hrel s t -> ct hrel (LkHas160.exec_call c s) (LkHas160.exec_call c t).
Proof.
  destruct s as [r x], t as [q y]. intros [L H]. cbn [fst snd] in *. unfold LkHas160.exec_call. destruct (c_fn c), (c_args c) as [|a [|b [|]]]; try apply ct_ub.
  2-5: eapply (ct_bind sl); [apply ct_call; [intros; now apply ct_has_round|exact L]|intros; apply ct_ok; split; assumption].
  eapply (ct_bind tab); [now apply ct_has_extend|intros; apply ct_ok; split; assumption].
Qed.
Lemma ct_has m n h k : sl m n -> sl h k -> ct sl (LkHas160.compress m h) (LkHas160.compress n k).
Proof.
  intros L M. unfold LkHas160.compress. eapply ct_bind; [apply ct_has_fill, L|]. intros x y H. eapply ct_bind; [apply ct_map; intros; apply ct_get, M|]. intros u v V.
  eapply (ct_bind hrel); [apply ct_fold_same; [intros; now apply ct_has_call|split; assumption]|]. intros s t [Hs _]. ct.
Qed.

Lemma ct_md4_round1 m n k s u v : sl m n -> sl u v -> ct wr (LkMd4.round1 m k s u) (LkMd4.round1 n k s v).
Proof. intros H L. unfold LkMd4.round1. do 5 (shape L u v; try apply ct_ub). ct. Qed.
Lemma ct_md4_round23 m n F K k s u v : sl m n -> sl u v -> ct wr (LkMd4.round23 m F K k s u) (LkMd4.round23 n F K k s v).
Proof. intros H L. unfold LkMd4.round23. do 5 (shape L u v; try apply ct_ub). ct. Qed.
Global Hint Resolve ct_md4_round1 ct_md4_round23 : ct.
Lemma ct_md4_call m n c r q : sl m n -> sl r q -> ct sl (LkMd4.exec_call m c r) (LkMd4.exec_call n c q).
Proof. intros H L. unfold LkMd4.exec_call. destruct (c_args c) as [|a [|b [|]]]; try apply ct_ub. destruct (c_fn c); ct. Qed.
Global Hint Resolve ct_md4_call : ct.
Lemma ct_md4 m n h k : sl m n -> sl h k -> ct sl (LkMd4.compress m h) (LkMd4.compress n k).
Proof. intros H L. unfold LkMd4.compress. ct. Qed.

Lemma ct_md5_round m n F k s t u v : sl m n -> sl u v -> ct wr (LkMd5.round m F k s t u) (LkMd5.round n F k s t v).
Proof. intros H L. unfold LkMd5.round. do 5 (shape L u v; try apply ct_ub). ct. Qed.
Global Hint Resolve ct_md5_round : ct.
Lemma ct_md5_call m n c r q : sl m n -> sl r q -> ct sl (LkMd5.exec_call m c r) (LkMd5.exec_call n c q).
Proof. intros H L. unfold LkMd5.exec_call. destruct (c_args c) as [|a [|b [|d [|e [|]]]]]; try apply ct_ub. ct. Qed.
Global Hint Resolve ct_md5_call : ct.
Lemma ct_md5 m n h k : sl m n -> sl h k -> ct sl (LkMd5.compress m h) (LkMd5.compress n k).
Proof. intros H L. unfold LkMd5.compress. ct. Qed.

Lemma ct_rmd_line4 m n f k r s u v : sl m n -> sl u v -> ct wr (LkRipemd.line4 m f k r s u) (LkRipemd.line4 n f k r s v).
Proof. intros H L. unfold LkRipemd.line4. do 5 (shape L u v; try apply ct_ub). ct. Qed.
Lemma ct_rmd_line5 m n f k r s u v : sl m n -> sl u v -> ct wr (LkRipemd.line5 m f k r s u) (LkRipemd.line5 n f k r s v).
Proof. intros H L. unfold LkRipemd.line5. do 6 (shape L u v; try apply ct_ub). ct. Qed.
Lemma ct_rmd_swap u v : sl u v -> ct wr (LkRipemd.swap u) (LkRipemd.swap v).
Proof. intros L. unfold LkRipemd.swap. do 3 (shape L u v; try apply ct_ub). ct. Qed.
Global Hint Resolve ct_rmd_line4 ct_rmd_line5 ct_rmd_swap : ct.
Lemma ct_rmd_line f g a regs r q : (forall F k n s u v, sl u v -> ct wr (f F k n s u) (g F k n s v)) -> sl r q -> ct sl (LkRipemd.line f a regs r) (LkRipemd.line g a regs q).
Proof. intros H L. unfold LkRipemd.line. destruct a as [|a [|b [|d [|e [|]]]]]; try apply ct_ub. ct. Qed.
Global Hint Resolve ct_rmd_line : ct.
Lemma ct_rmd_exec128 m n c r q : sl m n -> sl r q -> ct sl (LkRipemd.exec128 m c r) (LkRipemd.exec128 n c q).
Proof. intros H L. unfold LkRipemd.exec128. destruct (c_fn c); ct. Qed.
Lemma ct_rmd_exec160 m n c r q : sl m n -> sl r q -> ct sl (LkRipemd.exec160 m c r) (LkRipemd.exec160 n c q).
Proof. intros H L. unfold LkRipemd.exec160. destruct (c_fn c); ct. Qed.
Lemma ct_rmd_exec256 m n c r q : sl m n -> sl r q -> ct sl (LkRipemd.exec256 m c r) (LkRipemd.exec256 n c q).
Proof. intros H L. unfold LkRipemd.exec256. destruct (c_fn c); ct. Qed.
Lemma ct_rmd_exec320 m n c r q : sl m n -> sl r q -> ct sl (LkRipemd.exec320 m c r) (LkRipemd.exec320 n c q).
Proof. intros H L. unfold LkRipemd.exec320. destruct (c_fn c); ct. Qed.
Lemma ct_rmd_mix s t r q j k l : sl s t -> sl r q -> ct any (LkRipemd.mix s r j k l) (LkRipemd.mix t q j k l).
Proof. intros H L. unfold LkRipemd.mix. ct. Qed.
Lemma ct_rmd_add n r q s t : sl r q -> sl s t -> ct sl (LkRipemd.add_all n r s) (LkRipemd.add_all n q t).
Proof. intros H L. unfold LkRipemd.add_all. ct. Qed.
Global Hint Resolve ct_rmd_exec128 ct_rmd_exec160 ct_rmd_exec256 ct_rmd_exec320 ct_rmd_mix ct_rmd_add : ct.
Lemma ct_rmd128 m n h k : sl m n -> sl h k -> ct sl (LkRipemd.compress128 m h) (LkRipemd.compress128 n k).
Proof. intros H L. unfold LkRipemd.compress128. ct. Qed.
Lemma ct_rmd160 m n h k : sl m n -> sl h k -> ct sl (LkRipemd.compress160 m h) (LkRipemd.compress160 n k).
Proof. intros H L. unfold LkRipemd.compress160. ct. Qed.
Lemma ct_rmd256 m n h k : sl m n -> sl h k -> ct sl (LkRipemd.compress256 m h) (LkRipemd.compress256 n k).
Proof. intros H L. unfold LkRipemd.compress256. ct. Qed.
Lemma ct_rmd320 m n h k : sl m n -> sl h k -> ct sl (LkRipemd.compress320 m h) (LkRipemd.compress320 n k).
Proof. intros H L. unfold LkRipemd.compress320. ct. Qed.

Lemma ct_sha1_std t w v : sl w v -> ct any (LkSha1.w_std t w) (LkSha1.w_std t v).
Proof. intros H. unfold LkSha1.w_std. ct. Qed.
Lemma ct_sha1_alt t w v : sl w v -> ct any (LkSha1.w_alt t w) (LkSha1.w_alt t v).
Proof. intros H. unfold LkSha1.w_alt. ct. Qed.
Definition lrel (s t : list N * list N) : Prop := sl (fst s) (fst t) /\ sl (snd s) (snd t).
Lemma ct_sha1_round W V F K a b c d e t l p : (forall t w v, sl w v -> ct any (W t w) (V t v)) -> lrel l p -> ct lrel (LkSha1.round W F K a b c d e t l) (LkSha1.round V F K a b c d e t p).
Proof.
  intros H. destruct l as [r w], p as [q v]. intros [L M]. cbn [fst snd] in *. unfold LkSha1.round. eapply ct_bind; [apply H, M|]. intros ? ? _. eapply ct_bind; [apply ct_set, M|]. intros w' v' M'.
  do 5 (eapply ct_bind; [apply ct_get, L|]; intros ? ? _). eapply ct_bind; [apply ct_get, M'|]. intros ? ? _. eapply ct_bind; [apply ct_set, L|]. intros r1 q1 L1.
  eapply ct_bind; [apply ct_get, L1|]. intros ? ? _. eapply ct_bind; [apply ct_set, L1|]. intros. apply ct_ok. split; assumption.
Qed.
Lemma ct_sha1_call m n c l p : sl m n -> lrel l p -> ct lrel (LkSha1.exec_call m c l) (LkSha1.exec_call n c p).
Proof.
  intros H L. unfold LkSha1.exec_call. destruct (c_regs c) as [|a [|b [|d [|e [|f [|]]]]]]; try apply ct_ub. destruct (c_args c) as [|t [|]]; try apply ct_ub. cbv zeta.
  destruct (c_fn c); apply ct_sha1_round; try exact L; intros; [now apply ct_be|now apply ct_sha1_std|now apply ct_sha1_std|now apply ct_sha1_alt|now apply ct_sha1_alt|now apply ct_sha1_alt].
Qed.
Lemma ct_sha1 m n h k : sl m n -> sl h k -> ct sl (LkSha1.compress m h) (LkSha1.compress n k).
Proof.
  intros H L. unfold LkSha1.compress. do 5 (eapply ct_bind; [apply ct_get, L|]; intros). eapply (ct_bind lrel); [apply ct_fold_same; [intros; now apply ct_sha1_call|split; reflexivity]|].
  intros s t [K _]. ct.
Qed.

Section Sha2.
  Context (w : N) (nb rounds : nat) (s0 s1 b0 b1 : N -> N) (kt : list N).
  Lemma ct_sha2_fill m n : sl m n -> ct sl (LkSha2.fill_w w nb rounds s0 s1 m) (LkSha2.fill_w w nb rounds s0 s1 n).
  Proof. intros H. unfold LkSha2.fill_w. ct. Qed.
  Lemma ct_sha2_round x y a b c d e f g h t r q : sl x y -> sl r q -> ct sl (LkSha2.round w b0 b1 kt x a b c d e f g h t r) (LkSha2.round w b0 b1 kt y a b c d e f g h t q).
  Proof. intros H L. unfold LkSha2.round. cbv zeta. ct. Qed.
  Hint Resolve ct_sha2_fill ct_sha2_round : ct.
  Lemma ct_sha2_eight x y t r q : sl x y -> sl r q -> ct sl (LkSha2.eight w b0 b1 kt x t r) (LkSha2.eight w b0 b1 kt y t q).
  Proof. intros H L. unfold LkSha2.eight. cbv zeta. ct. Qed.
  Hint Resolve ct_sha2_eight : ct.
  Lemma ct_sha2 m n h k : sl m n -> sl h k -> ct sl (LkSha2.compress w nb rounds s0 s1 b0 b1 kt m h) (LkSha2.compress w nb rounds s0 s1 b0 b1 kt n k).
  Proof. intros H L. unfold LkSha2.compress. ct. Qed.
End Sha2.
Lemma ct_sha2_arr224 h k : sl h k -> ct sl (LkSha2.toArray_512_224 h) (LkSha2.toArray_512_224 k).
Proof. intros H. unfold LkSha2.toArray_512_224. eapply ct_bind; [apply ct_get, H|]. intros. apply ct_store, sl_app; [apply sl_be, sl_first, H|reflexivity]. Qed.

Lemma ct_kc_st l r y x : sl l r -> ct any (LkKeccak.st l y x) (LkKeccak.st r y x).
Proof. apply ct_get. Qed.
Lemma ct_kc_set l r y x v w : sl l r -> ct sl (LkKeccak.st_set l y x v) (LkKeccak.st_set r y x w).
Proof. apply ct_set. Qed.
Global Hint Resolve ct_kc_st ct_kc_set : ct.
Lemma ct_kc_column l r x : sl l r -> ct any (LkKeccak.column l x) (LkKeccak.column r x).
Proof. intros H. unfold LkKeccak.column. ct. Qed.
Global Hint Resolve ct_kc_column : ct.
Lemma ct_kc_theta l r : sl l r -> ct sl (LkKeccak.theta l) (LkKeccak.theta r).
Proof. intros H. unfold LkKeccak.theta. cbv zeta. ct. Qed.
Lemma ct_kc_rho l r : sl l r -> ct sl (LkKeccak.rhoPi_tmp l) (LkKeccak.rhoPi_tmp r).
Proof. intros H. unfold LkKeccak.rhoPi_tmp. apply ct_map. intros [[a b] c]. ct. Qed.
Lemma ct_kc_chi t u l r : sl t u -> sl l r -> ct sl (LkKeccak.chi t l) (LkKeccak.chi u r).
Proof. intros K H. unfold LkKeccak.chi. apply ct_for; [|exact H]. intros. apply ct_fold_same; [|assumption]. intros [[a b] c] ? ? ?. ct. Qed.
Lemma ct_kc_iota i l r : sl l r -> ct sl (LkKeccak.iota i l) (LkKeccak.iota i r).
Proof. intros H. unfold LkKeccak.iota. ct. Qed.
Global Hint Resolve ct_kc_theta ct_kc_rho ct_kc_chi ct_kc_iota : ct.
Lemma ct_kc_round i l r : sl l r -> ct sl (LkKeccak.roundFunction i l) (LkKeccak.roundFunction i r).
Proof. intros H. unfold LkKeccak.roundFunction, LkKeccak.rhoPiChi. ct. Qed.
Global Hint Resolve ct_kc_round : ct.
Definition krel (s t : Keccak.St) : Prop := sl (Keccak.k_state s) (Keccak.k_state t) /\ sl (Keccak.k_final s) (Keccak.k_final t) /\ Keccak.k_len s = Keccak.k_len t.
Section Keccak.
  Context (R : nat) (P : N) (dbg : bool).
  Lemma ct_kc_compress m n l r : sl m n -> sl l r -> ct sl (LkKeccak.compress R m l) (LkKeccak.compress R n r).
  Proof. intros K H. unfold LkKeccak.compress. ct. Qed.
  Lemma ct_kc_impl d e s t : sl d e -> krel s t -> ct krel (LkKeccak.impl R dbg d s) (LkKeccak.impl R dbg e t).
  Proof.
    intros L (H1 & H2 & H3). unfold LkKeccak.impl. eapply ct_bind; [apply ct_aligned, L|]. intros. eapply ct_bind; [apply (ct_loop sl); [exact ct_kc_compress|exact L|exact H1]|].
    intros. apply ct_ok. repeat split; assumption.
  Qed.
  Lemma ct_kc_squish n : forall s t, krel s t -> ct krel (LkKeccak.squish R dbg n s) (LkKeccak.squish R dbg n t).
  Proof.
    induction n as [|n IH]; intros s t (H1 & H2 & H3); cbn [LkKeccak.squish]; [apply ct_ub|]. cbv zeta.
    assert (V : sl (LkKeccak.stateToVector (Keccak.k_state s)) (LkKeccak.stateToVector (Keccak.k_state t))) by (apply sl_le, H1).
    revert V. generalize (LkKeccak.stateToVector (Keccak.k_state s)) (LkKeccak.stateToVector (Keccak.k_state t)). intros x y V. rewrite V.
    eapply (ct_bind sl); [ct|]. intros u v W. cbn [Keccak.k_state Keccak.k_final Keccak.k_len].
    assert (W' : sl (Keccak.k_final s ++ u) (Keccak.k_final t ++ v)) by now apply sl_app. rewrite W', H3. apply ct_tell. destruct (_ <=? _); [apply ct_ok; repeat split; assumption|].
    eapply ct_bind; [apply ct_kc_impl; [reflexivity|repeat split; assumption]|]. intros. now apply IH.
  Qed.
  Lemma ct_kc_fin o q : obj krel o q -> ct (obj krel) (LkKeccak.finalize R P dbg o) (LkKeccak.finalize R P dbg q).
  Proof.
    destruct o as [b s], q as [c t]. intros [A Q]. cbn [fst snd] in *. unfold LkKeccak.finalize. cbv zeta.
    eapply ct_bind; [apply ct_fill, A|]. intros x y Hxy. unfold buf_size. rewrite (proj1 Hxy). eapply ct_bind; [apply ct_fill, Hxy|]. intros x2 y2 H2. eapply ct_bind; [apply ct_getend, H2|]. intros ? ? _.
    eapply ct_bind; [apply ct_setend, H2|]. intros x3 y3 H3. eapply ct_bind; [apply ct_kc_impl; [apply sl_span, H3|exact Q]|]. intros s1 t1 Q1. rewrite (proj2 (proj2 Q1)).
    eapply ct_bind; [apply ct_kc_squish, Q1|]. intros s2 t2 (K1 & K2 & K3). apply ct_ok. split; [apply alike_cleared, H3|]. cbn [snd]. unfold LkKeccak.resize. rewrite K3.
    repeat split; [exact K1|]. cbn [Keccak.k_final]. apply sl_app; [apply sl_first, K2|]. unfold sl in *. now rewrite !repeat_length, K2.
  Qed.
End Keccak.

(** SipHash: neither the key nor the data matters *)
Lemma ct_sip_rounds n s t : ct any (LkSipHash.sipRounds n s) (LkSipHash.sipRounds n t).
Proof. unfold LkSipHash.sipRounds. apply ct_for; [|exact I]. intros. apply ct_ok. exact I. Qed.
Lemma ct_sip_compress C m n s t : sl m n -> ct any (LkSipHash.compress C m s) (LkSipHash.compress C n t).
Proof.
  intros L. unfold LkSipHash.compress. destruct s, t. eapply ct_bind; [apply ct_le, L|]. intros. eapply ct_bind; [apply ct_sip_rounds|]. intros [] [] _. eapply ct_bind; [apply ct_le, L|].
  intros. apply ct_ok. exact I.
Qed.
Lemma ct_sip_impl C dbg d e s t : sl d e -> ct any (LkSipHash.addDataImpl C dbg d s) (LkSipHash.addDataImpl C dbg e t).
Proof.
  intros L. unfold LkSipHash.addDataImpl. eapply ct_bind; [apply ct_aligned, L|]. intros. cbv zeta. eapply (ct_bind any); [apply (ct_loop any); [|exact L|exact I]|intros; apply ct_ok; exact I].
  intros. now apply ct_sip_compress.
Qed.
Lemma ct_sip_fin C D dbg o q : obj any o q -> ct (obj any) (LkSipHash.finalize C D dbg o) (LkSipHash.finalize C D dbg q).
Proof.
  destruct o as [b s], q as [c t]. intros [A _]. cbn [fst] in A. unfold LkSipHash.finalize. cbv zeta. unfold buf_size. rewrite (proj1 A). apply ct_tell. destruct (_ <? _); [apply ct_ub|].
  eapply ct_bind; [apply ct_fill, A|]. intros x y H. eapply ct_bind; [apply ct_fill, H|]. intros x2 y2 H2. eapply (ct_bind any); [apply ct_sip_impl, sl_span, H2|]. intros s' t' _.
  destruct (SipHash.s_v s'), (SipHash.s_v t'). eapply ct_bind; [apply ct_sip_rounds|]. intros. apply ct_ok. split; [apply alike_cleared, H2|exact I].
Qed.
Lemma ct_sip_arr o q : ct sl (LkSipHash.toArray o) (LkSipHash.toArray q).
Proof. unfold LkSipHash.toArray. destruct (SipHash.s_v (snd o)), (SipHash.s_v (snd q)). apply ct_store. unfold sl. now rewrite !bytes_be. Qed.
Lemma ct_sip_construct dbg k l : sl k l -> ct (obj any) (LkSipHash.construct dbg k) (LkSipHash.construct dbg l).
Proof.
  intros L. unfold LkSipHash.construct. rewrite L. apply ct_tell. destruct (_ && _); [apply ct_throw|]. eapply ct_bind; [apply ct_le, L|]. intros. eapply ct_bind; [apply ct_le, L|].
  intros. apply ct_ok. split; [split; reflexivity|exact I].
Qed.

Lemma ct_sm3_expand m n : sl m n -> ct sl (LkSm3.expand m) (LkSm3.expand n).
Proof. intros H. unfold LkSm3.expand. ct. Qed.
Lemma ct_sm3_round w x FF GG k t u v : sl w x -> sl u v -> ct wr (LkSm3.round w FF GG k t u) (LkSm3.round x FF GG k t v).
Proof. intros H L. unfold LkSm3.round. cbv zeta. do 9 (shape L u v; try apply ct_ub). ct. Qed.
Global Hint Resolve ct_sm3_expand ct_sm3_round : ct.
Lemma ct_sm3_call w x c r q : sl w x -> sl r q -> ct sl (LkSm3.exec_call w c r) (LkSm3.exec_call x c q).
Proof. intros H L. unfold LkSm3.exec_call. destruct (c_fn c), (c_args c) as [|a [|b [|]]]; try apply ct_ub; ct. Qed.
Global Hint Resolve ct_sm3_call : ct.
Lemma ct_sm3 m n h k : sl m n -> sl h k -> ct sl (LkSm3.compress m h) (LkSm3.compress n k).
Proof. intros H L. unfold LkSm3.compress. ct. Qed.
