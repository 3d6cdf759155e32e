(** operator== against the digests, for all objects that any program can produce. *)
From Coq Require Import List NArith Arith Bool Lia.
From Verif.Base Require Import Res CWord.
From Verif.Spec Require Import Words Client Legal.
From Verif.Model Require Import Buffer Stream Api Counter Library.
From Verif.Model Require Blake1 Blake2 Crc32 Fnv Has160 Keccak Md2 Md4 Md5 Ripemd Sha1 Sha2 SipHash Sm3 Tiger Whirlpool.
From Verif.Model.Gen Require Blake1Tables.
From Verif.Proof Require Import Words Streaming Blocks Api Class Encode Post Shape.
From Verif.Proof Require Crc32.
Import ListNotations.
Local Open Scope N_scope.

Lemma skipn_nth {A} i (l : list A) d : (i < length l)%nat -> skipn i l = nth i l d :: skipn (Datatypes.S i) l.
Proof. revert l; induction i as [|i IH]; intros [|x l] H; cbn [length] in H; try lia; [reflexivity|]. cbn [skipn nth]. apply IH. lia. Qed.
Lemma eq_loop_spec n : forall i l r, length l = (i + n)%nat -> length r = (i + n)%nat ->
  exists b, eq_loop n i l r = Ok b /\ (b = true <-> skipn i l = skipn i r).
Proof.
  induction n as [|n IH]; intros i l r Hl Hr; cbn [eq_loop].
  - exists true. split; [reflexivity|]. rewrite !skipn_all2 by lia. tauto.
  - rewrite (aget_ok 0), (aget_ok 0), !bind_ok by lia. rewrite (skipn_nth i l 0), (skipn_nth i r 0) by lia.
    destruct (N.eqb_spec (nth i l 0) (nth i r 0)) as [E|E].
    + destruct (IH (Datatypes.S i) l r) as (b & Eb & Hb); [lia|lia|]. exists b. split; [exact Eb|]. rewrite Hb, E.
      split; [intros ->; reflexivity|]. now intros [= H].
    + exists false. split; [reflexivity|]. split; [discriminate|]. intros [= H _]. contradiction.
Qed.
Lemma eq_array_spec n l r : length l = n -> length r = n -> exists b, eq_array n l r = Ok b /\ (b = true <-> l = r).
Proof. exact (eq_loop_spec n 0 l r). Qed.

(** ** What == looks at and what the digest is read from *)
Record Sight (a : alg) (dbg : bool) (n : nat) (good : list N -> Prop) (view : Obj (class a dbg) -> list N) (read : list N -> res (list N)) : Prop := {
  si_eq : forall l r, equal a dbg l r = eq_array n (view l) (view r);
  si_read : forall x, good (view x) -> c_array (class a dbg) x = read (view x);
  si_good : forall x, Reachable (class a dbg) x -> good (view x);
  si_len : forall l, good l -> length l = n;
  si_ok : unreadable a = false -> forall l, good l -> exists d, read l = Ok d /\ length d = digest_size a;
  si_inj : full a = true -> forall l r, good l -> good r -> read l = read r -> l = r
}.
Definition Seen (a : alg) (dbg : bool) : Prop := exists n good view read, Sight a dbg n good view read.

(** read-outs *)
Definition coder (enc : nat -> N -> list N) : Prop := forall k x y,
  length (enc k x) = k /\ (bnd (8 * N.of_nat k) x -> bnd (8 * N.of_nat k) y -> enc k x = enc k y -> x = y).
Lemma be_coder : coder word_bytes_be.
Proof.
  intros k x y. rewrite !word_bytes_be_ok. split; [apply be_bytes_length|]. apply be_bytes_inj.
Qed.
Lemma le_coder : coder word_bytes_le.
Proof.
  intros k x y. rewrite !word_bytes_le_ok. split; [apply le_bytes_length|]. intros Hx Hy E.
  apply (be_bytes_inj k x y Hx Hy). unfold be_bytes. now rewrite E.
Qed.
Lemma coder_flat enc k l r : coder enc -> Forall (bnd (8 * N.of_nat k)) l -> Forall (bnd (8 * N.of_nat k)) r -> length l = length r ->
  flat_map (enc k) l = flat_map (enc k) r -> l = r.
Proof.
  intros He Hl. revert r. induction Hl as [|x l Hx Hl IH]; intros [|y r] Hr L E; try discriminate; [reflexivity|].
  apply Forall_cons_iff in Hr. destruct Hr as [Hy Hr]. cbn [flat_map] in E. apply app_inj_len in E.
  - destruct E as [E1 E2]. injection L as L. rewrite (IH r Hr L E2). f_equal. exact (proj2 (He k x y) Hx Hy E1).
  - rewrite (proj1 (He k x y)), (proj1 (He k y x)). reflexivity.
Qed.
Lemma firstn_words w n m l : (m <= n)%nat -> words w n l -> words w m (firstn m l).
Proof.
  intros H [L F]. split; [rewrite firstn_length; lia|]. rewrite <- (firstn_skipn m l) in F. apply Forall_app in F. tauto.
Qed.

Section Read.
  Variables (enc : nat -> N -> list N) (k n m size : nat).
  Hypothesis He : coder enc.
  Hypothesis Hm : (m <= n)%nat.
  Hypothesis Hs : size = (k * m)%nat.
  Let read (l : list N) := store_array size (flat_map (enc k) (firstn m l)).
  Let good := words (8 * N.of_nat k) n.

  Lemma read_some l : good l -> read l = Ok (flat_map (enc k) (firstn m l)).
  Proof.
    intros [L _]. unfold read. apply store_array_eq. rewrite (flat_length _ k), firstn_length by (intros x; apply (He k x 0)). rewrite Hs. nia.
  Qed.
  Lemma read_good l : good l -> exists d, read l = Ok d /\ length d = size.
  Proof.
    intros H. eexists. split; [apply read_some, H|]. destruct H as [L _].
    rewrite (flat_length _ k), firstn_length by (intros x; apply (He k x 0)). rewrite Hs. nia.
  Qed.
  Lemma read_inj l r : m = n -> good l -> good r -> read l = read r -> l = r.
  Proof.
    intros E Hl Hr H. rewrite (read_some l Hl), (read_some r Hr) in H. apply Proof.Crc32.Ok_inj in H. destruct Hl as [L F], Hr as [L' F'].
    rewrite !firstn_all2 in H by lia. apply (coder_flat enc k l r He F F'); [congruence|exact H].
  Qed.
End Read.

Lemma store_full (enc : N -> list N) size l m : length l = m -> store_array size (flat_map enc l) = store_array size (flat_map enc (firstn m l)).
Proof. intros <-. now rewrite firstn_all. Qed.

(** ** the classes with an array of words *)
Section Words.
  Variables (a : alg) (dbg : bool) (enc : nat -> N -> list N) (k n m : nat) (view : Obj (class a dbg) -> list N).
  Hypothesis He : coder enc.
  Hypothesis Hm : (m <= n)%nat.
  Hypothesis Hs : digest_size a = (k * m)%nat.
  Hypothesis Heq : forall l r, equal a dbg l r = eq_array n (view l) (view r).
  Hypothesis Hrd : forall x, length (view x) = n -> c_array (class a dbg) x = store_array (digest_size a) (flat_map (enc k) (firstn m (view x))).
  Hypothesis Hgood : forall x, Reachable (class a dbg) x -> words (8 * N.of_nat k) n (view x).
  Hypothesis Hfull : full a = true -> m = n.

  Lemma words_seen : Seen a dbg.
  Proof.
    exists n, (words (8 * N.of_nat k) n), view, (fun l => store_array (digest_size a) (flat_map (enc k) (firstn m l))). constructor; auto.
    - intros x [L _]. now apply Hrd.
    - intros l [L _]. exact L.
    - intros _ l Hl. now apply (read_good enc k n m _ He Hm Hs).
    - intros Hf l r Hl Hr E. now apply (read_inj enc k n m _ He Hm Hs l r (Hfull Hf)).
  Qed.
End Words.

(** a property kept by [compress] holds of the chaining state of every reachable object *)
Lemma md_view {H} B dbg pb wl (compress : list N -> H -> res H) iv arr (I : H -> Prop) x :
  I iv -> (forall m h, I h -> post (compress m h) I) -> Reachable (md_class B dbg pb wl compress iv arr) x -> I (md_h (snd x)).
Proof. intros H1 H2 HR. exact (kept_reachable _ _ x (md_kept B dbg pb wl compress iv arr I H1 H2) HR). Qed.
Lemma md128_view {H} B r dbg (compress : list N -> H -> res H) iv arr (I : H -> Prop) x :
  I iv -> (forall m h, I h -> post (compress m h) I) -> Reachable (md128_class B r dbg compress iv arr) x -> I (md8_h (snd x)).
Proof. intros H1 H2 HR. exact (kept_reachable _ _ x (md128_kept B r dbg compress iv arr I H1 H2) HR). Qed.

Lemma iv_words w n l : length l = n -> forallb (fun x => x <? 2 ^ w) l = true -> words w n l.
Proof. intros H F. split; [exact H|]. apply Forall_forall. intros x Hx. rewrite forallb_forall in F. apply N.ltb_lt, F, Hx. Qed.
Ltac by_words := match goal with |- words _ _ _ => apply iv_words; vm_compute; reflexivity end.

Tactic Notation "seen_md" constr(enc) constr(co) constr(k) constr(n) constr(m) uconstr(H) :=
  match goal with |- Seen ?a ?dbg =>
    refine (words_seen a dbg enc k n m (fun x => md_h (snd x)) co _ _ _ _ _ _);
    [lia|reflexivity|reflexivity|first [reflexivity|intros x Hl; exact (store_full _ _ _ _ Hl)]
    |intros x HR; refine (md_view _ _ _ _ _ _ _ (words 32 n) x _ H HR); by_words
    |first [reflexivity|discriminate]]
  end.
Tactic Notation "seen_md128" constr(k) constr(n) constr(m) uconstr(H) :=
  match goal with |- Seen ?a ?dbg =>
    refine (words_seen a dbg word_bytes_be k n m (fun x => md8_h (snd x)) be_coder _ _ _ _ _ _);
    [lia|reflexivity|reflexivity|first [reflexivity|intros x Hl; exact (store_full _ _ _ _ Hl)]
    |intros x HR; refine (md128_view _ _ _ _ _ _ (words 64 n) x _ H HR); by_words
    |first [reflexivity|discriminate]]
  end.
Lemma blake1_view32 F calls narrow lastbit dbg iv size n x : words 32 8 iv ->
  Reachable (Model.Blake1.cls 32 4 16 12 8 7 Blake1Tables.cTable32 F calls ctr64 narrow lastbit dbg iv size n) x -> words 32 8 (snd (snd x)).
Proof.
  intros Hiv HR. refine (proj2 (kept_reachable _ _ x (blake1_kept 32 4 _ _ _ _ _ _ _ ctr64 _ _ dbg (fun _ => True) sound64 _ _ _ _ Hiv) HR)).
  apply (iv_words 32 16); vm_compute; reflexivity.
Qed.
Lemma blake1_view64 F calls narrow lastbit dbg iv size n x : words 64 8 iv ->
  Reachable (Model.Blake1.cls 64 8 32 25 16 11 Blake1Tables.cTable64 F calls ctr128 narrow lastbit dbg iv size n) x -> words 64 8 (snd (snd x)).
Proof.
  intros Hiv HR. refine (proj2 (kept_reachable _ _ x (blake1_kept 64 8 _ _ _ _ _ _ _ ctr128 _ _ dbg _ sound128 _ _ _ _ Hiv) HR)).
  apply (iv_words 64 16); vm_compute; reflexivity.
Qed.
Tactic Notation "seen_ctr" constr(enc) constr(co) constr(k) constr(m) uconstr(H) :=
  match goal with |- Seen ?a ?dbg =>
    refine (words_seen a dbg enc k 8 m (fun x => snd (snd x)) co _ _ _ _ _ _);
    [lia|reflexivity|reflexivity|first [reflexivity|intros x Hl; exact (store_full _ _ _ _ Hl)]
    |intros x HR; refine (H x _ HR); by_words
    |first [reflexivity|discriminate]]
  end.

Lemma blake2_view dbg x : True -> Reachable (class Blake2 dbg) x -> words 64 8 (snd (snd x)).
Proof.
  intros _ HR. refine (proj2 (kept_reachable _ _ x (blake2_kept 64 8 _ _ _ _ _ _ _ ctr128 dbg _ sound128 _ 64 _) HR)).
  - apply (iv_words 64 8); vm_compute; reflexivity.
  - by_words.
Qed.
Lemma blake2s_view dbg x : True -> Reachable (class Blake2s dbg) x -> words 32 8 (snd (snd x)).
Proof.
  intros _ HR. refine (proj2 (kept_reachable _ _ x (blake2_kept 32 4 _ _ _ _ _ _ _ ctr64 dbg (fun _ => True) sound64 _ 32 _) HR)).
  - apply (iv_words 32 8); vm_compute; reflexivity.
  - by_words.
Qed.

(** one word *)
Lemma word_seen a dbg (size : nat) (val : Obj (class a dbg) -> N) : digest_size a = size ->
  (forall l r, equal a dbg l r = Ok (val l =? val r)) ->
  (forall x, c_array (class a dbg) x = store_array size (word_bytes_be size (val x))) ->
  (forall x, Reachable (class a dbg) x -> bnd (8 * N.of_nat size) (val x)) -> Seen a dbg.
Proof.
  intros Hs He Hr Hb. refine (words_seen a dbg word_bytes_be size 1 1 (fun x => [val x]) be_coder (le_n 1) _ _ _ _ (fun _ => eq_refl)).
  - lia.
  - intros l r. rewrite He. cbn [eq_array eq_loop aget nth_error]. rewrite !bind_ok. now destruct (_ =? _).
  - intros x _. rewrite Hr, Hs. cbn [firstn flat_map]. now rewrite app_nil_r.
  - intros x Hx. split; [reflexivity|]. constructor; [now apply Hb|constructor].
Qed.
Ltac seen_word size K := match goal with |- Seen ?a ?dbg =>
  refine (word_seen a dbg size (fun x => x) eq_refl _ _ _); [reflexivity|reflexivity|exact (fun x => kept_reachable _ _ x K)] end.

Section Tiger.
  Variables (V size : nat) (dbg : bool).
  Let C := Model.Tiger.cls V size dbg.
  Lemma tiger_view x : Reachable C x -> words 64 3 (tuple3 (md_h (snd x))).
  Proof.
    intros HR. assert (triple (md_h (snd x))) as H.
    { refine (md_view _ _ _ _ _ _ _ triple x _ tiger_triple HR). now apply triple_iff. }
    destruct (md_h (snd x)) as [[p q] r]. apply triple_iff in H. destruct H as (H1 & H2 & H3). split; [reflexivity|]. repeat constructor; assumption.
  Qed.
  Lemma tiger_read x : c_array C x = store_array size (flat_map (word_bytes_le 8) (tuple3 (md_h (snd x)))).
  Proof. cbn [C Model.Tiger.cls md_class c_array]. unfold Model.Tiger.toArray. now destruct (md_h (snd x)) as [[p q] r]. Qed.
End Tiger.
Ltac seen_tiger V := match goal with |- Seen ?a ?dbg =>
  refine (words_seen a dbg word_bytes_le 8 3 3 (fun x => tuple3 (md_h (snd x))) le_coder (le_n 3) eq_refl _ _ (tiger_view V 24 dbg) (fun _ => eq_refl));
  [reflexivity|intros x Hl; rewrite <- (store_full _ _ _ _ Hl); exact (tiger_read V 24 dbg x)] end.
Ltac seen_short V size := match goal with |- Seen ?a ?dbg =>
  exists 3%nat, (words 64 3), (fun x => tuple3 (md_h (snd x))), (fun l => store_array size (flat_map (word_bytes_le 8) l)); constructor;
  [reflexivity|intros x _; exact (tiger_read V size dbg x)|exact (tiger_view V size dbg)|intros l [Hl _]; exact Hl|discriminate|discriminate] end.

Theorem seen a dbg : well_formed a -> sponge a = false -> Seen a dbg.
Proof.
  intros Hw Hsp. destruct a; try discriminate Hsp.
  - seen_ctr word_bytes_be be_coder 4%nat 7%nat (blake1_view32 _ _ _ _ dbg _ 28 7).
  - seen_ctr word_bytes_be be_coder 4%nat 8%nat (blake1_view32 _ _ _ _ dbg _ 32 8).
  - seen_ctr word_bytes_be be_coder 8%nat 6%nat (blake1_view64 _ _ _ _ dbg _ 48 6).
  - seen_ctr word_bytes_be be_coder 8%nat 8%nat (blake1_view64 _ _ _ _ dbg _ 64 8).
  - refine (words_seen Blake2 dbg word_bytes_le 8 8 8 (fun x => snd (snd x)) le_coder (le_n 8) eq_refl _ _ (fun x => blake2_view dbg x I) (fun _ => eq_refl));
      [reflexivity|intros x Hl; exact (store_full _ _ _ _ Hl)].
  - refine (words_seen Blake2s dbg word_bytes_le 4 8 8 (fun x => snd (snd x)) le_coder (le_n 8) eq_refl _ _ (fun x => blake2s_view dbg x I) (fun _ => eq_refl));
      [reflexivity|intros x Hl; exact (store_full _ _ _ _ Hl)].
  - seen_word 4%nat crc_kept.
  - seen_word 4%nat (fnv_kept 4 0 (or_introl eq_refl)).
  - seen_word 4%nat (fnv_kept 4 1 (or_introl eq_refl)).
  - seen_word 4%nat (fnv_kept 4 2 (or_introl eq_refl)).
  - seen_word 8%nat (fnv_kept 8 0 (or_intror eq_refl)).
  - seen_word 8%nat (fnv_kept 8 1 (or_intror eq_refl)).
  - seen_word 8%nat (fnv_kept 8 2 (or_intror eq_refl)).
  - seen_md word_bytes_le le_coder 4%nat 5%nat 5%nat has160_words.
  - exists 48%nat, (fun l => length l = 48%nat), (fun x => Model.Md2.m_x (snd x)), (fun l => mapM (aget l) (seq 0 16)). constructor.
    + reflexivity.
    + reflexivity.
    + exact (fun x => kept_reachable _ _ x (md2_kept dbg)).
    + auto.
    + intros _ l H. rewrite (mapM_ok _ (fun i => nth i l 0)); [eexists; split; [reflexivity|apply map_length]|].
      intros i Hi. apply in_seq in Hi. apply aget_ok. lia.
    + discriminate.
  - seen_md word_bytes_le le_coder 4%nat 4%nat 4%nat md4_words.
  - seen_md word_bytes_le le_coder 4%nat 4%nat 4%nat md5_words.
  - seen_md word_bytes_le le_coder 4%nat 4%nat 4%nat ripemd128_words.
  - seen_md word_bytes_le le_coder 4%nat 5%nat 5%nat ripemd160_words.
  - seen_md word_bytes_le le_coder 4%nat 8%nat 8%nat ripemd256_words.
  - seen_md word_bytes_le le_coder 4%nat 10%nat 10%nat ripemd320_words.
  - seen_md word_bytes_be be_coder 4%nat 5%nat 5%nat sha1_words.
  - seen_md word_bytes_be be_coder 4%nat 8%nat 7%nat (sha2_words 32 4 _ _ _ _ _ _).
  - seen_md word_bytes_be be_coder 4%nat 8%nat 8%nat (sha2_words 32 4 _ _ _ _ _ _).
  - seen_md128 8%nat 8%nat 6%nat (sha2_words 64 8 _ _ _ _ _ _).
  - seen_md128 8%nat 8%nat 8%nat (sha2_words 64 8 _ _ _ _ _ _).
  - exists 8%nat, (words 64 8), (fun x => md8_h (snd x)), Model.Sha2.toArray_512_224. constructor.
    + reflexivity.
    + reflexivity.
    + intros x HR. refine (md128_view _ _ _ _ _ _ (words 64 8) x _ (sha2_words 64 8 _ _ _ _ _ _) HR). by_words.
    + intros l [H _]. exact H.
    + intros _ l [H _]. unfold Model.Sha2.toArray_512_224. rewrite (aget_ok 0), bind_ok by (rewrite H; lia).
      assert (forall q r s t, length (flat_map (word_bytes_be 8) (firstn 3 l) ++ [q; r; s; t]) = 28%nat) as HL.
      { intros. rewrite app_length, (flat_length _ 8), firstn_length, H by (intros; apply (be_coder 8%nat x 0)). reflexivity. }
      rewrite store_array_eq by apply HL. eexists. split; [reflexivity|apply HL].
    + discriminate.
  - seen_md128 8%nat 8%nat 4%nat (sha2_words 64 8 _ _ _ _ _ _).
  - destruct Hw as [H0 H1]. exists 4%nat, (fun l => length l = 4%nat), (fun x => tuple4 (Model.SipHash.s_v (snd x))),
      (fun l => store_array 8 (word_bytes_be 8 (fold_left N.lxor l 0))). constructor.
    + reflexivity.
    + intros x _. change (c_array (class (SipHash k0 k1) dbg) x) with (Model.SipHash.toArray x). unfold Model.SipHash.toArray.
      destruct (Model.SipHash.s_v (snd x)). cbn [tuple4 fold_left]. now rewrite N.lxor_0_l.
    + intros x _. now destruct (Model.SipHash.s_v (snd x)).
    + auto.
    + intros _ l _. rewrite word_bytes_be_ok, store_array_eq by apply be_bytes_length. eexists. split; [reflexivity|apply be_bytes_length].
    + discriminate.
  - seen_md word_bytes_be be_coder 4%nat 8%nat 8%nat sm3_words.
  - seen_short 1%nat 16%nat.
  - seen_short 1%nat 20%nat.
  - seen_tiger 1%nat.
  - seen_short 2%nat 16%nat.
  - seen_short 2%nat 20%nat.
  - seen_tiger 2%nat.
  - seen_md128 8%nat 8%nat 8%nat whirlpool_words.
Qed.

Lemma std_hash_total d : exists v, std_hash d = Ok v.
Proof.
  unfold std_hash, to_uint. set (k := min 8 (length d)).
  assert (exists v, for_ 0 k (fun i ret => let! x := aget d i in Ok (N.lor (ushl (8 * N.of_nat 8) ret 8) x)) 0 = Ok v /\ True) as (v & E & _).
  { apply (for_inv (fun _ _ => True)); [exact I|]. intros i v Hi _. rewrite (aget_ok 0), bind_ok by lia. eauto. }
  eauto.
Qed.

Theorem library_eq_digest a dbg x y : well_formed a -> sponge a = false -> unreadable a = false ->
  Reachable (class a dbg) x -> Reachable (class a dbg) y ->
  exists b d e, equal a dbg x y = Ok b /\ unequal a dbg x y = Ok (negb b) /\
    c_array (class a dbg) x = Ok d /\ c_array (class a dbg) y = Ok e /\ (b = true -> d = e) /\ (full a = true -> d = e -> b = true).
Proof.
  intros Hw Hs Hu Hx Hy. destruct (seen a dbg Hw Hs) as (n & good & view & read & [Heq Hrd Hg Hl Hok Hinj]).
  apply Hg in Hx. apply Hg in Hy. destruct (eq_array_spec n (view x) (view y) (Hl _ Hx) (Hl _ Hy)) as (b & Eb & Hb).
  destruct (Hok Hu _ Hx) as (d & Ed & _). destruct (Hok Hu _ Hy) as (e & Ee & _).
  assert (equal a dbg x y = Ok b) as E by now rewrite Heq. exists b, d, e. unfold unequal. rewrite E, bind_ok.
  rewrite (Hrd x Hx), (Hrd y Hy). repeat (split; [first [reflexivity|assumption]|]). split.
  - intros T. apply Hb in T. rewrite T, Ee in Ed. now apply Proof.Crc32.Ok_inj in Ed.
  - intros F T. apply Hb. apply (Hinj F _ _ Hx Hy). rewrite Ed, Ee. now rewrite T.
Qed.

Theorem library_eq_std a dbg x y : well_formed a -> sponge a = false -> unreadable a = false ->
  Reachable (class a dbg) x -> Reachable (class a dbg) y -> equal a dbg x y = Ok true ->
  exists v, exec_op (class a dbg) StdHash x = Ok (x, Some (ONum v)) /\ exec_op (class a dbg) StdHash y = Ok (y, Some (ONum v)).
Proof.
  intros Hw Hs Hu Hx Hy E. destruct (library_eq_digest a dbg x y Hw Hs Hu Hx Hy) as (b & d & e & Eb & _ & Ed & Ee & Hb & _).
  rewrite E in Eb. apply Proof.Crc32.Ok_inj in Eb. rewrite (Hb (eq_sym Eb)) in Ed. destruct (std_hash_total e) as (v & Ev). exists v.
  cbn [exec_op]. rewrite Ed, Ee, !bind_ok, Ev, !bind_ok. split; reflexivity.
Qed.

(** == never fails on a reachable object, whatever the class *)
Theorem library_eq_total a dbg x y : well_formed a -> Reachable (class a dbg) x -> Reachable (class a dbg) y ->
  exists b, equal a dbg x y = Ok b /\ unequal a dbg x y = Ok (negb b).
Proof.
  intros Hw Hx Hy. assert (exists b, equal a dbg x y = Ok b) as (b & E).
  - destruct (sponge a) eqn:Es.
    + destruct a; try discriminate Es;
      match goal with |- exists b, equal ?a _ ?l ?r = _ => change (exists b, eq_array 25 (Model.Keccak.k_state (snd l)) (Model.Keccak.k_state (snd r)) = Ok b) end;
      match goal with |- exists b, eq_array ?n ?l ?r = _ => destruct (eq_array_spec n l r) as (b & Eb & _) end;
      try (eexists; eassumption); first [exact (kept_reachable _ _ x (keccak_kept _ _ _ _) Hx)|exact (kept_reachable _ _ y (keccak_kept _ _ _ _) Hy)].
    + destruct (seen a dbg Hw Es) as (n & good & view & read & [Heq Hrd Hg Hl Hok Hinj]).
      destruct (eq_array_spec n (view x) (view y)) as (b & Eb & _); [auto|auto|]. exists b. now rewrite Heq.
  - exists b. unfold unequal. rewrite E, bind_ok. split; reflexivity.
Qed.

(** the two directions for the Props *)
Theorem library_eq_full a dbg x y : full a = true -> Reachable (class a dbg) x -> Reachable (class a dbg) y ->
  exists b d e, equal a dbg x y = Ok b /\ unequal a dbg x y = Ok (negb b) /\
    c_array (class a dbg) x = Ok d /\ c_array (class a dbg) y = Ok e /\ (b = true <-> d = e).
Proof.
  intros Hf Hx Hy. destruct (library_eq_digest a dbg x y) as (b & d & e & H1 & H2 & H3 & H4 & H5 & H6); try assumption; try (destruct a; first [discriminate Hf|reflexivity|exact I]).
  exists b, d, e. do 4 (split; [assumption|]). split; auto.
Qed.
Theorem library_eq_forward a dbg x y : well_formed a -> sponge a = false -> unreadable a = false ->
  Reachable (class a dbg) x -> Reachable (class a dbg) y ->
  exists b d e, equal a dbg x y = Ok b /\ unequal a dbg x y = Ok (negb b) /\
    c_array (class a dbg) x = Ok d /\ c_array (class a dbg) y = Ok e /\ (b = true -> d = e).
Proof.
  intros Hw Hs Hu Hx Hy. destruct (library_eq_digest a dbg x y Hw Hs Hu Hx Hy) as (b & d & e & H1 & H2 & H3 & H4 & H5 & _).
  exists b, d, e. auto 10.
Qed.
