(** Length extension of the classes that show all words of the chaining value. *)
From Coq Require Import List NArith Arith Bool Lia.
From Verif.Base Require Import Res CWord.
From Verif.Spec Require Import Words Client Legal Merkle Chaining Extension.
From Verif.Model Require Import Buffer Stream Api Library Chaining Extension.
From Verif.Model Require Tiger.
From Verif.Proof Require Import Words Streaming Blocks Api MD Class Padding Encode Post Shape Equality Collide.
Import ListNotations.
Local Open Scope N_scope.

Lemma pad_suffix B r mk enc m : pad B r mk enc m = m ++ suffix B r mk enc (length m).
Proof. reflexivity. Qed.

(** what was given to an object chunk by chunk is a program *)
Lemma adds_exec C ds : forall st x0, foldM (c_add C) ds (st 0%nat) = Ok x0 ->
  exists st', exec C (map (fun d => On 0 (AddData d)) ds) st = Ok ([], st') /\ st' 0%nat = x0.
Proof.
  induction ds as [|d ds IH]; intros st x0 E; cbn [foldM map exec] in *.
  - exists st. split; [reflexivity|congruence].
  - destruct (c_add C d (st 0%nat)) as [y| |] eqn:Ey; try discriminate. rewrite bind_ok in E.
    cbn [exec_op]. rewrite Ey, !bind_ok. cbn [fst snd].
    destruct (IH (put C st 0 y) x0) as (st' & E1 & E2); [exact E|]. rewrite E1, bind_ok. exists st'. split; [reflexivity|exact E2].
Qed.
Lemma digested_reachable C ds x : Forall bytes_ok ds -> digested C ds x -> Reachable C x.
Proof.
  intros Hds (x0 & E0 & E). destruct (adds_exec C ds (fun _ => c_new C) x0 E0) as (st & E1 & E2).
  assert (forall p q st os st', exec C p st = Ok (os, st') -> exec C (p ++ q) st = (let! t := exec C q st' in Ok (os ++ fst t, snd t))) as App.
  { clear. induction p as [|c p IH]; intros q st os st' E; cbn [exec app] in *.
    - injection E as <- <-. destruct (exec C q st) as [[o s]| |]; reflexivity.
    - destruct c as [i o|i j]; [|now apply IH].
      destruct (exec_op C o (st i)) as [[y w]| |]; try discriminate. rewrite bind_ok in E |- *. cbn [fst snd] in *.
      destruct (exec C p (put C st i y)) as [[os1 st1]| |] eqn:E1; try discriminate. rewrite bind_ok in E. cbn [fst snd] in E.
      rewrite (IH q _ os1 st1 E1). injection E as <- <-. destruct (exec C q st1) as [[o2 s2]| |]; try reflexivity.
      rewrite !bind_ok. cbn [fst snd]. destruct w; reflexivity. }
  exists (map (fun d => On 0 (AddData d)) ds ++ [On 0 Finalize]), [], (put C st 0 x), 0%nat. split; [|split].
  - unfold program_bytes. apply Forall_app. split; [|repeat constructor]. apply Forall_map. apply (Forall_impl _ (fun d H => H)), Hds.
  - rewrite (App _ _ _ _ _ E1). cbn [exec exec_op]. rewrite E2, E, !bind_ok. reflexivity.
  - reflexivity.
Qed.

(** reading words back *)
Lemma words_back (enc : N -> list N) (val : list N -> N) k l : (0 < k)%nat ->
  (forall x, length (enc x) = k) -> Forall (fun x => val (enc x) = x) l -> map val (pieces k (flat_map enc l)) = l.
Proof.
  intros Hk Hl F. induction F as [|x l Hx F IH]; [reflexivity|]. cbn [flat_map].
  rewrite pieces_cons by auto. cbn [map]. now rewrite Hx, IH.
Qed.
Lemma be_back k l n : (0 < k)%nat -> words (8 * N.of_nat k) n l -> be_words k (flat_map (be_bytes k) l) = l.
Proof.
  intros Hk [_ F]. apply words_back; [exact Hk|apply be_bytes_length|]. revert F. apply Forall_impl. intros x H.
  rewrite be_value_bytes, pow256. apply N.mod_small, H.
Qed.
Lemma le_back k l n : (0 < k)%nat -> words (8 * N.of_nat k) n l -> le_words k (flat_map (le_bytes k) l) = l.
Proof.
  intros Hk [_ F]. apply words_back; [exact Hk|apply le_bytes_length|]. revert F. apply Forall_impl. intros x H.
  rewrite le_value_bytes, pow256. apply N.mod_small, H.
Qed.
Lemma be_store k n size l : size = (k * n)%nat -> words (8 * N.of_nat k) n l -> store_array size (flat_map (word_bytes_be k) l) = Ok (flat_map (be_bytes k) l).
Proof.
  intros -> [L _]. rewrite (flat_map_ext _ (be_bytes k)) by (intros; apply word_bytes_be_ok).
  apply store_array_eq. rewrite (flat_length _ k), L by (intros; apply be_bytes_length). nia.
Qed.
Lemma le_store k n size l : size = (k * n)%nat -> words (8 * N.of_nat k) n l -> store_array size (flat_map (word_bytes_le k) l) = Ok (flat_map (le_bytes k) l).
Proof.
  intros -> [L _]. rewrite (flat_map_ext _ (le_bytes k)) by (intros; apply word_bytes_le_ok).
  apply store_array_eq. rewrite (flat_length _ k), L by (intros; apply le_bytes_length). nia.
Qed.

(** the digest of such a class is the chaining value, and shows it *)
Definition shows (a : alg) (dbg : bool) (x : Obj (class a dbg)) : Prop :=
  c_array (class a dbg) x = Ok (bytes_of a (chaining a dbg x)) /\ words_of a (bytes_of a (chaining a dbg x)) = chaining a dbg x.

Tactic Notation "show_be" constr(k) constr(n) uconstr(V) :=
  let W := fresh in match goal with HR : Reachable _ ?x |- _ => assert (words (8 * N.of_nat k) n (chaining _ _ x)) as W by (refine (V _ HR); by_words) end;
  split; [first [exact (be_store k n _ _ eq_refl W)|exact (eq_trans (eq_sym (store_full _ _ _ n (proj1 W))) (be_store k n _ _ eq_refl W))]|refine (be_back k _ n _ W); lia].
Tactic Notation "show_le" constr(k) constr(n) uconstr(V) :=
  let W := fresh in match goal with HR : Reachable _ ?x |- _ => assert (words (8 * N.of_nat k) n (chaining _ _ x)) as W by (refine (V _ HR); by_words) end;
  split; [exact (le_store k n _ _ eq_refl W)|refine (le_back k _ n _ W); lia].

Lemma tiger_shows V dbg (x : Obj (Model.Tiger.cls V 24 dbg)) : Reachable (Model.Tiger.cls V 24 dbg) x ->
  c_array (Model.Tiger.cls V 24 dbg) x = Ok (flat_map (le_bytes 8) (tuple3 (md_h (snd x)))) /\
  (let w := le_words 8 (flat_map (le_bytes 8) (tuple3 (md_h (snd x)))) in (nth 0 w 0, nth 1 w 0, nth 2 w 0)) = md_h (snd x).
Proof.
  intros HR. pose proof (tiger_view V 24 dbg x HR) as W. split.
  - rewrite tiger_read. exact (le_store 8 3 _ _ eq_refl W).
  - rewrite (le_back 8 _ 3 ltac:(lia) W). destruct (md_h (snd x)) as [[p q] r]. reflexivity.
Qed.
Lemma shows_all a dbg x : full a = true -> padding a <> None -> Reachable (class a dbg) x -> shows a dbg x.
Proof.
  intros Hf Hp HR. unfold shows. destruct a; try discriminate Hf; try (contradiction Hp; reflexivity).
  - show_le 4%nat 5%nat (fun I => md_view _ _ _ _ _ _ _ (words 32 5) _ I has160_words).
  - show_le 4%nat 4%nat (fun I => md_view _ _ _ _ _ _ _ (words 32 4) _ I md4_words).
  - show_le 4%nat 4%nat (fun I => md_view _ _ _ _ _ _ _ (words 32 4) _ I md5_words).
  - show_le 4%nat 4%nat (fun I => md_view _ _ _ _ _ _ _ (words 32 4) _ I ripemd128_words).
  - show_le 4%nat 5%nat (fun I => md_view _ _ _ _ _ _ _ (words 32 5) _ I ripemd160_words).
  - show_le 4%nat 8%nat (fun I => md_view _ _ _ _ _ _ _ (words 32 8) _ I ripemd256_words).
  - show_le 4%nat 10%nat (fun I => md_view _ _ _ _ _ _ _ (words 32 10) _ I ripemd320_words).
  - show_be 4%nat 5%nat (fun I => md_view _ _ _ _ _ _ _ (words 32 5) _ I sha1_words).
  - show_be 4%nat 8%nat (fun I => md_view _ _ _ _ _ _ _ (words 32 8) _ I (sha2_words 32 4 _ _ _ _ _ _)).
  - show_be 8%nat 8%nat (fun I => md128_view _ _ _ _ _ _ (words 64 8) _ I (sha2_words 64 8 _ _ _ _ _ _)).
  - show_be 4%nat 8%nat (fun I => md_view _ _ _ _ _ _ _ (words 32 8) _ I sm3_words).
  - now apply (tiger_shows 1).
  - now apply (tiger_shows 2).
  - show_be 8%nat 8%nat (fun I => md128_view _ _ _ _ _ _ (words 64 8) _ I whirlpool_words).
Qed.

(** ** the theorems *)

(** the chaining value of a message is the value with which the blocks behind its padding start *)
Theorem glued a dbg B r mk enc ds es x y t : padding a = Some (B, r, mk, enc) ->
  Forall span_ok ds -> Forall span_ok es -> fits (counts a) (concat es) -> digested (class a dbg) ds x -> digested (class a dbg) es y ->
  concat es = concat ds ++ suffix B r mk enc (length (concat ds)) ++ t ->
  foldM (compression a) (pieces B (t ++ suffix B r mk enc (length (concat es)))) (chaining a dbg x) = Ok (chaining a dbg y).
Proof.
  intros E Hds Hes F Hx Hy Ee. destruct (padding_facts a B r mk enc E) as (HB & Hr & Hmk & Hl & Hk & Hi).
  assert (fits (counts a) (concat ds)) as F0.
  { unfold fits in *. rewrite Ee, app_length in F. eapply N.le_lt_trans; [|exact F]. lia. }
  pose proof (blocks_fed a B r mk enc E dbg ds x Hds F0 Hx) as Ex.
  pose proof (blocks_fed a B r mk enc E dbg es y Hes F Hy) as Ey.
  assert (pad B r mk enc (concat es) = pad B r mk enc (concat ds) ++ t ++ suffix B r mk enc (length (concat es))) as Ep.
  { rewrite !pad_suffix. rewrite Ee at 1. now rewrite <- !app_assoc. }
  rewrite Ep in Ey.
  rewrite pieces_app in Ey by (auto; now apply pad_aligned).
  rewrite foldM_app, Ex, bind_ok in Ey. exact Ey.
Qed.

Theorem extension a dbg ds es d e t : full a = true -> forall B r mk enc, padding a = Some (B, r, mk, enc) ->
  Forall span_ok ds -> Forall span_ok es -> fits (counts a) (concat es) ->
  hash_chunks (class a dbg) ds = Ok d -> hash_chunks (class a dbg) es = Ok e ->
  concat es = concat ds ++ suffix B r mk enc (length (concat ds)) ++ t ->
  forged a d (length (concat ds)) t = Ok e.
Proof.
  intros Hf B r mk enc E Hds Hes F Ed Ee Em.
  assert (forall l v, Forall span_ok l -> hash_chunks (class a dbg) l = Ok v -> exists x, digested (class a dbg) l x /\ v = bytes_of a (chaining a dbg x)
    /\ words_of a v = chaining a dbg x) as K.
  { intros l v Hl. unfold hash_chunks. destruct (foldM (c_add (class a dbg)) l (c_new (class a dbg))) as [x0| |] eqn:E0; try discriminate.
    rewrite bind_ok. destruct (c_finalize (class a dbg) x0) as [x| |] eqn:E1; try discriminate. rewrite bind_ok. intros Ev.
    assert (digested (class a dbg) l x) as D by (exists x0; auto). exists x. split; [exact D|].
    destruct (shows_all a dbg x Hf) as [S1 S2]; [rewrite E; discriminate| |].
    - apply (digested_reachable _ l); [|exact D]. revert Hl. apply Forall_impl. intros s [H _]. exact H.
    - rewrite S1 in Ev. apply Proof.Crc32.Ok_inj in Ev. rewrite <- Ev. split; [reflexivity|exact S2]. }
  destruct (K ds d Hds Ed) as (x & Dx & _ & Wx). destruct (K es e Hes Ee) as (y & Dy & Wy & _).
  unfold forged. rewrite E. rewrite Wx.
  replace (length (concat ds) + length (suffix B r mk enc (length (concat ds))) + length t)%nat with (length (concat es))
    by (rewrite Em, !app_length; lia).
  rewrite (glued a dbg B r mk enc ds es x y t E Hds Hes F Dx Dy Em), bind_ok. now rewrite Wy.
Qed.

(** messages of one length with one digest keep having one digest when they are continued alike behind their padding *)
Theorem kept_collision a dbg ds1 ds2 es1 es2 d e1 e2 t : full a = true -> forall B r mk enc, padding a = Some (B, r, mk, enc) ->
  Forall span_ok ds1 -> Forall span_ok ds2 -> Forall span_ok es1 -> Forall span_ok es2 ->
  fits (counts a) (concat es1) -> length (concat ds1) = length (concat ds2) ->
  hash_chunks (class a dbg) ds1 = Ok d -> hash_chunks (class a dbg) ds2 = Ok d ->
  hash_chunks (class a dbg) es1 = Ok e1 -> hash_chunks (class a dbg) es2 = Ok e2 ->
  concat es1 = concat ds1 ++ suffix B r mk enc (length (concat ds1)) ++ t ->
  concat es2 = concat ds2 ++ suffix B r mk enc (length (concat ds2)) ++ t -> e1 = e2.
Proof.
  intros Hf B r mk enc E H1 H2 G1 G2 F L D1 D2 E1 E2 M1 M2.
  pose proof (extension a dbg ds1 es1 d e1 t Hf B r mk enc E H1 G1 F D1 E1 M1) as X1.
  assert (fits (counts a) (concat es2)) as F2.
  { unfold fits in *. rewrite M1, !app_length in F. rewrite M2, !app_length, <- L. exact F. }
  pose proof (extension a dbg ds2 es2 d e2 t Hf B r mk enc E H2 G2 F2 D2 E2 M2) as X2.
  rewrite L, X2 in X1. now apply Proof.Crc32.Ok_inj in X1.
Qed.
