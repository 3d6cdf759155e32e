(** Laws that hold for the whole library. *)
From Coq Require Import List NArith Arith Bool Lia.
From Verif.Base Require Import Res.
From Verif.Spec Require Import Words Client Legal.
From Verif.Model Require Import Stream Api Library.
From Verif.Proof Require Import Words Blocks Api Legal Library.
From Verif.Model Require Fnv.
From Verif.Proof Require Fnv Tiger.
Import ListNotations.

Lemma nonempty_hash a (hash : list N -> list N) : (forall m, length (hash m) = digest_size a) ->
  digest_size a <> 0 -> forall m, hash m <> [].
Proof. intros H Hs m E. apply Hs. rewrite <- (H m), E. reflexivity. Qed.

(** ** FNV-0: as the other classes, but for reset() *)

Lemma fnv0_cases a : fnv0 a = true -> exists size, Proof.Fnv.size_ok size /\ digest_size a = size /\ forall dbg, class a dbg = Model.Fnv.cls size 0.
Proof. destruct a; try discriminate; intros _; [exists 4|exists 8]; (split; [|split; reflexivity]); [left|right]; reflexivity. Qed.

(** the class with a working reset() *)
Definition fnv0_fixed (size : nat) : HashClass :=
  let C := Model.Fnv.cls size 0 in
  {| Obj := Obj C; c_new := c_new C; c_add := c_add C; c_finalize := c_finalize C; c_reset := fun _ => c_new C; c_array := c_array C |}.

Lemma fnv0_fixed_correct size : Proof.Fnv.size_ok size ->
  Correct (fnv0_fixed size) (fun m => be_bytes size (Proof.Fnv.value size 0 m)) (fun _ => True).
Proof.
  intros Hs. exists (Proof.Fnv.absorb size 0), (Proof.Fnv.absorb size 0).
  constructor; cbn [c_new c_add c_finalize c_array c_reset fnv0_fixed Model.Fnv.cls].
  - now apply Proof.Fnv.new_ok.
  - intros m d _ _. apply Proof.Fnv.add_ok.
  - reflexivity.
  - intros m _ _. apply Proof.Fnv.array_ok; [exact Hs|lia].
  - reflexivity.
  - reflexivity.
  - intros m _ _. apply be_bytes_ok.
Qed.

Lemma fnv_to_string size h : Proof.Fnv.size_ok size -> exists t, (let! d := Model.Fnv.toArray size h in to_string d) = Ok t.
Proof.
  intros Hs. unfold Model.Fnv.toArray. rewrite word_bytes_be_ok, store_array_eq, bind_ok by apply be_bytes_length.
  rewrite to_string_ok; [eauto|apply be_bytes_ok|].
  intros E. apply (f_equal (@length N)) in E. rewrite be_bytes_length in E. destruct Hs; subst; discriminate.
Qed.

(** no call on an FNV object can fail *)
Lemma fnv_exec size variant : Proof.Fnv.size_ok size -> forall p st, exists os st', exec (Model.Fnv.cls size variant) p st = Ok (os, st').
Proof.
  intros Hs. assert (forall h, exists d, Model.Fnv.toArray size h = Ok d /\ bytes_ok d) as HA.
  { intros h. unfold Model.Fnv.toArray. rewrite word_bytes_be_ok, store_array_eq by apply be_bytes_length.
    eexists. split; [reflexivity|apply be_bytes_ok]. }
  assert (forall o x, exists y w, exec_op (Model.Fnv.cls size variant) o x = Ok (y, w)) as HO.
  { intros o x. destruct (HA x) as (d & Ed & Hd). destruct (fnv_to_string size x Hs) as (t & Et). rewrite Ed, bind_ok in Et.
    destruct o; cbn [exec_op c_add c_finalize c_array c_reset Model.Fnv.cls];
      unfold Model.Fnv.addDataImpl, Model.Fnv.finalize, std_hash; rewrite ?bind_ok, ?Ed, ?bind_ok, ?Et, ?to_uint_ok, ?bind_ok by assumption;
      eauto. }
  induction p as [|[i o|i j] p IH]; intros st.
  - cbn [exec]. eauto.
  - destruct (HO o (st i)) as (y & w & E). cbn [exec]. rewrite E, bind_ok. cbn [fst snd].
    destruct (IH (put _ st i y)) as (os & st' & E'). rewrite E', bind_ok. eauto.
  - cbn [exec]. apply IH.
Qed.

(** ** C22 *)
Theorem library_chunks a dbg dbg' xs ys : well_formed a -> Forall span_ok xs -> Forall span_ok ys -> concat xs = concat ys ->
  hash_chunks (class a dbg) xs = hash_chunks (class a dbg') ys.
Proof.
  intros Hw Hx Hy E. destruct (fnv0 a) eqn:Ef.
  - destruct (fnv0_cases a Ef) as (size & Hs & _ & Hc). rewrite !Hc, !Proof.Fnv.chunks by (auto; lia). now rewrite E.
  - destruct (unreadable a) eqn:Eu.
    + destruct a; try discriminate Eu; cbn [class]; rewrite !Proof.Tiger.short_ub by (auto; lia); reflexivity.
    + destruct (library_known a Hw Eu Ef) as (hash & HC & _).
      rewrite (correct_chunks _ _ _ (HC dbg) xs Hx I), (correct_chunks _ _ _ (HC dbg') ys Hy I). now rewrite E.
Qed.

(** the digest exists, and has the size the class promises *)
Theorem library_digest a dbg xs : well_formed a -> unreadable a = false -> Forall span_ok xs ->
  exists d, hash_chunks (class a dbg) xs = Ok d /\ bytes_ok d /\ length d = digest_size a.
Proof.
  intros Hw Eu Hx. destruct (fnv0 a) eqn:Ef.
  - destruct (fnv0_cases a Ef) as (size & Hs & Es & Hc). rewrite Hc, Proof.Fnv.chunks by (auto; lia).
    eexists. split; [reflexivity|]. split; [apply be_bytes_ok|]. now rewrite be_bytes_length.
  - destruct (library_known a Hw Eu Ef) as (hash & HC & HL). exists (hash (concat xs)). split; [|split].
    + now rewrite (correct_chunks _ _ _ (HC dbg) xs Hx I).
    + destruct (HC dbg) as (ab & dn & HI). apply (im_bytes _ _ _ _ _ HI); [now apply bytes_ok_concat|exact I].
    + apply HL.
Qed.

(** ** C23 *)
Theorem library_reset a dbg p os st : well_formed a -> unreadable a = false -> fnv0 a = false ->
  legal_program (digest_size a <> 0) p -> exec (class a dbg) p (fun _ => c_new (class a dbg)) = Ok (os, st) ->
  forall i q, exec (class a dbg) (On i Reset :: q) st = exec (class a dbg) q (put (class a dbg) st i (c_new (class a dbg))).
Proof.
  intros Hw Eu Ef Hp E. destruct (library_known a Hw Eu Ef) as (hash & HC & HL).
  apply (legal_reset_program _ hash (digest_size a <> 0) p os st (HC dbg)); auto. now apply nonempty_hash.
Qed.

(** ** C24, C25 *)
Theorem library_safe a p : well_formed a -> unreadable a = false -> legal_program (digest_size a <> 0) p ->
  exists os st st', exec (class a true) p (fun _ => c_new (class a true)) = Ok (os, st) /\
    exec (class a false) p (fun _ => c_new (class a false)) = Ok (os, st').
Proof.
  intros Hw Eu Hp. destruct (fnv0 a) eqn:Ef.
  - destruct (fnv0_cases a Ef) as (size & Hs & _ & Hc). rewrite !Hc.
    destruct (fnv_exec size 0 Hs p (fun _ => c_new (Model.Fnv.cls size 0))) as (os & st & E). eauto.
  - destruct (library_known a Hw Eu Ef) as (hash & HC & HL).
    apply (legal_same _ _ hash (digest_size a <> 0)); auto. now apply nonempty_hash.
Qed.

(** ** C26 *)
Definition agree C (y : Obj C) (d : list N) : Prop :=
  exec_op C ToArray y = Ok (y, Some (OBytes d)) /\
  exec_op C ToVector y = Ok (y, Some (OBytes d)) /\
  (d <> [] -> exec_op C ToString y = Ok (y, Some (OChars (hex_text d)))) /\
  (forall n, exec_op C (ToUint n) y = Ok (y, Some (ONum (leading_number n d)))) /\
  exec_op C StdHash y = exec_op C (ToUint 8) y.

Theorem library_readouts a dbg chunks : well_formed a -> unreadable a = false -> Forall span_ok chunks ->
  exists x y d, foldM (c_add (class a dbg)) chunks (c_new (class a dbg)) = Ok x /\ c_finalize (class a dbg) x = Ok y /\
    length d = digest_size a /\
    exec_op (class a dbg) ToArray y = Ok (y, Some (OBytes d)) /\
    exec_op (class a dbg) ToVector y = Ok (y, Some (OBytes d)) /\
    (d <> [] -> exec_op (class a dbg) ToString y = Ok (y, Some (OChars (hex_text d)))) /\
    (forall n, exec_op (class a dbg) (ToUint n) y = Ok (y, Some (ONum (leading_number n d)))) /\
    exec_op (class a dbg) StdHash y = exec_op (class a dbg) (ToUint 8) y.
Proof.
  intros Hw Eu Hx. destruct (library_digest a dbg chunks Hw Eu Hx) as (d0 & E0 & _ & L0).
  assert (exists x d, foldM (c_add (class a dbg)) chunks (c_new (class a dbg)) = Ok x /\ exists y, c_finalize (class a dbg) x = Ok y /\
    agree (class a dbg) y d) as (x & d & E1 & y & E2 & E3).
  { destruct (fnv0 a) eqn:Ef.
    - destruct (fnv0_cases a Ef) as (size & Hs & _ & Hc). rewrite !Hc.
      exact (readouts (fnv0_fixed size) _ chunks (fnv0_fixed_correct size Hs) Hx).
    - destruct (library_known a Hw Eu Ef) as (hash & HC & HL). exact (readouts _ hash chunks (HC dbg) Hx). }
  exists x, y, d. split; [exact E1|]. split; [exact E2|]. split; [|exact E3].
  unfold hash_chunks in E0. rewrite E1, bind_ok, E2, bind_ok in E0.
  destruct E3 as (E3 & _). cbn [exec_op] in E3. rewrite E0, bind_ok in E3. injection E3 as <-. exact L0.
Qed.

(** ** C34 *)
Theorem library_own_digest a dbg p i : well_formed a -> unreadable a = false -> fnv0 a = false ->
  legal_program (digest_size a <> 0) (p ++ [On i Finalize]) ->
  exists os st d, exec (class a dbg) (p ++ [On i Finalize]) (fun _ => c_new (class a dbg)) = Ok (os, st) /\
    c_array (class a dbg) (st i) = Ok d /\
    forall chunks, Forall span_ok chunks -> concat chunks = fed (own_calls p i) -> hash_chunks (class a dbg) chunks = Ok d.
Proof.
  intros Hw Eu Ef Hp. destruct (library_known a Hw Eu Ef) as (hash & HC & HL).
  apply (own_digest _ hash (digest_size a <> 0)); auto. now apply nonempty_hash.
Qed.

(** ** more for C22: the objects themselves are the same *)
Theorem library_same_object a dbg xs ys : well_formed a -> Forall span_ok xs -> Forall span_ok ys -> concat xs = concat ys ->
  foldM (c_add (class a dbg)) xs (c_new (class a dbg)) = foldM (c_add (class a dbg)) ys (c_new (class a dbg)).
Proof.
  assert (forall C hash, Correct C hash (fun _ => True) -> Forall span_ok xs -> Forall span_ok ys -> concat xs = concat ys ->
    foldM (c_add C) xs (c_new C) = foldM (c_add C) ys (c_new C)) as G.
  { intros C hash (ab & dn & HI) Hx Hy E.
    pose proof (foldM_absorb HI xs Hx [] (Forall_nil _)) as Ex. pose proof (foldM_absorb HI ys Hy [] (Forall_nil _)) as Ey.
    rewrite <- (im_new _ _ _ _ _ HI) in Ex, Ey. now rewrite Ex, Ey, E. }
  intros Hw Hx Hy E. destruct (fnv0 a) eqn:Ef.
  - destruct (fnv0_cases a Ef) as (size & Hs & _ & Hc). rewrite !Hc. exact (G (fnv0_fixed size) _ (fnv0_fixed_correct size Hs) Hx Hy E).
  - destruct (unreadable a) eqn:Eu.
    + destruct a; try discriminate Eu; cbn [class];
        first [exact (G (Model.Tiger.cls 1 24 dbg) _ (Proof.Tiger.tiger_correct dbg) Hx Hy E) |
               exact (G (Model.Tiger.cls 2 24 dbg) _ (Proof.Tiger.tiger2_correct dbg) Hx Hy E)].
    + destruct (library_known a Hw Eu Ef) as (hash & HC & _). exact (G _ hash (HC dbg) Hx Hy E).
Qed.

(** ** read-outs of the short Tiger classes: legal programs that run into undefined behaviour *)
Lemma legal_array (ne : Prop) x : span_ok x -> legal_program ne [On 0 (AddData x); On 0 Finalize; On 0 ToArray].
Proof. intros Hx. eexists. eapply le_on; [now apply lo_add|]. eapply le_on; [apply lo_fin|]. eapply le_on; [apply lo_array|]. apply le_nil. Qed.

Theorem tiger_reads a dbg x : unreadable a = true -> span_ok x ->
  exec (class a dbg) [On 0 (AddData x); On 0 Finalize; On 0 ToArray] (fun _ => c_new (class a dbg)) = Ub OobWrite.
Proof.
  intros Eu Hx. assert (hash_chunks (class a dbg) [x] = Ub OobWrite) as E.
  { destruct a; try discriminate Eu; cbn [class]; (rewrite Proof.Tiger.short_ub; [reflexivity|lia|now constructor]). }
  assert (exists y z, c_add (class a dbg) x (c_new (class a dbg)) = Ok y /\ c_finalize (class a dbg) y = Ok z) as (y & z & Ey & Ez).
  { assert (forall C hash, Correct C hash (fun _ => True) -> exists y z, c_add C x (c_new C) = Ok y /\ c_finalize C y = Ok z) as G.
    { intros C hash (ab & dn & HI). exists (ab x), (dn x). rewrite (im_new _ _ _ _ _ HI). split.
      - exact (im_add _ _ _ _ _ HI [] x (Forall_nil _) Hx).
      - apply (im_fin _ _ _ _ _ HI); [apply Hx|exact I]. }
    destruct a; try discriminate Eu; cbn [class];
      first [exact (G (Model.Tiger.cls 1 24 dbg) _ (Proof.Tiger.tiger_correct dbg)) |
             exact (G (Model.Tiger.cls 2 24 dbg) _ (Proof.Tiger.tiger2_correct dbg))]. }
  unfold hash_chunks in E. cbn [foldM] in E. rewrite Ey, !bind_ok, Ez, bind_ok in E.
  cbn [exec]. unfold exec_op at 1. rewrite Ey, !bind_ok. cbn [fst snd]. unfold put at 1. cbn [Nat.eqb].
  unfold exec_op at 1. rewrite Ez, !bind_ok. cbn [fst snd]. unfold put at 1. cbn [Nat.eqb].
  unfold exec_op at 1. now rewrite E.
Qed.

(** an empty digest: toString() takes front() of an empty string *)
Theorem empty_string a dbg x : well_formed a -> digest_size a = 0 -> span_ok x ->
  exec (class a dbg) [On 0 (AddData x); On 0 Finalize; On 0 ToString] (fun _ => c_new (class a dbg)) = Ub EmptyFront.
Proof.
  intros Hw Hs Hx. assert (unreadable a = false) as Eu by (destruct a; try reflexivity; discriminate Hs).
  assert (Forall span_ok [x]) as Hf by now constructor.
  destruct (library_readouts a dbg [x] Hw Eu Hf) as (y & z & d & Ey & Ez & Ld & Ea & _).
  cbn [foldM] in Ey. destruct (c_add (class a dbg) x (c_new (class a dbg))) as [y'| |] eqn:E0; [|discriminate Ey|discriminate Ey].
  rewrite bind_ok in Ey. injection Ey as <-.
  cbn [exec]. unfold exec_op at 1. rewrite E0, !bind_ok. cbn [fst snd]. unfold put at 1. cbn [Nat.eqb].
  unfold exec_op at 1. rewrite Ez, !bind_ok. cbn [fst snd]. unfold put at 1. cbn [Nat.eqb].
  cbn [exec_op] in Ea |- *. destruct (c_array (class a dbg) z) as [d'| |]; [|discriminate Ea|discriminate Ea].
  rewrite bind_ok in Ea |- *. injection Ea as ->. rewrite Hs in Ld. now destruct d.
Qed.
