(** The other classes of the library in any order of calls, and what follows. *)
From Coq Require Import List NArith Arith Bool Lia ZArith ZifyNat ZifyN.
From Verif.Base Require Import Res CWord.
From Verif.Spec Require Import Words Client Merkle AnyOrder Ledger Registers.
From Verif.Spec Require Md2 SipHash Blake Blake2 Crc32 Fnv.
From Verif.Model Require Import Buffer Stream Api Library.
From Verif.Proof Require Import Words Streaming Blocks Api Ledger LedgerLaws Registers.
From Verif.Proof Require Md2 SipHash Blake1 Blake2 Crc32 Crc32Algebra Fnv.
Import ListNotations.

(** what each of these classes is supposed to be *)
Definition kind_of (a : alg) : option kind :=
  match a with
  | Blake1_224 => Some blake224_kind
  | Blake1_256 => Some blake256_kind
  | Blake1_384 => Some blake384_kind
  | Blake1_512 => Some blake512_kind
  | Blake2 => Some blake2b_kind
  | Blake2s => Some blake2s_kind
  | CRC_32 => Some crc_kind
  | FNV32_0 => Some fnv32_0
  | FNV32_1 => Some fnv32_1
  | FNV32_1a => Some fnv32_1a
  | FNV64_0 => Some fnv64_0
  | FNV64_1 => Some fnv64_1
  | FNV64_1a => Some fnv64_1a
  | MD2 => Some md2_kind
  | SipHash k0 k1 => Some (sip_kind 2 4 k0 k1)
  | _ => None
  end.

Theorem library_desks a k dbg : well_formed a -> kind_of a = Some k -> exists R, Follows true k (class a dbg) R.
Proof.
  intros Hwf E. destruct a; try discriminate E; injection E as <-; cbn [class well_formed] in *.
  - apply blake224_follows.
  - apply blake256_follows.
  - apply blake384_follows.
  - apply blake512_follows.
  - apply blake2b_follows.
  - apply blake2s_follows.
  - apply crc_follows.
  - apply (fnv_follows 4 0); [left; reflexivity|lia].
  - apply (fnv_follows 4 1); [left; reflexivity|lia].
  - apply (fnv_follows 4 2); [left; reflexivity|lia].
  - apply (fnv_follows 8 0); [right; reflexivity|lia].
  - apply (fnv_follows 8 1); [right; reflexivity|lia].
  - apply (fnv_follows 8 2); [right; reflexivity|lia].
  - apply md2_follows.
  - destruct Hwf. now apply siphash_follows.
Qed.
Theorem desks_told a k dbg : well_formed a -> kind_of a = Some k -> obeys true k (class a dbg).
Proof. intros Hwf E. destruct (library_desks a k dbg Hwf E) as (R & F). exact (follows_obeys _ _ _ _ F). Qed.

(** ** programs *)
Lemma told_ext k p : forall s s', (forall i, s i = s' i) -> told k p s = told k p s'.
Proof.
  induction p as [|[i o|i j] p IH]; intros s s' H; cbn [told]; [reflexivity| |].
  - rewrite H. f_equal. apply IH. intros n. unfold enter. destruct (n =? i); [reflexivity|apply H].
  - apply IH. intros n. unfold enter. destruct (n =? i); apply H.
Qed.

(** calls that do nothing can be left out *)
Definition without (f : op -> bool) (p : list cmd) : list cmd :=
  filter (fun c => match c with On _ o => negb (f o) | CopyTo _ _ => true end) p.
Lemma told_without k f : (forall o, f o = true -> (forall d, shows d o = []) /\ forall x, called k o x = x) ->
  forall p s, told k (without f p) s = told k p s.
Proof.
  intros H. induction p as [|[i o|i j] p IH]; intros s; cbn [without filter told]; [reflexivity| |].
  - fold (without f p). destruct (f o) eqn:E; cbn [negb told].
    + destruct (H o E) as [E1 E2]. rewrite E1, E2, IH. cbn [app]. apply told_ext. intros n. unfold enter.
      destruct (Nat.eqb_spec n i) as [->|]; reflexivity.
    + now rewrite IH.
  - fold (without f p). now rewrite IH.
Qed.
Lemma callable_without f p : Forall (callable true) p -> Forall (callable true) (without f p).
Proof. intros H. apply Forall_forall. intros c Hc. apply filter_In in Hc. rewrite Forall_forall in H. now apply H. Qed.

(** calls on one object *)
Definition calls_on (i : nat) (os : list op) : list cmd := map (On i) os.
Lemma told_local k i os : forall s s', s i = s' i -> told k (calls_on i os) s = told k (calls_on i os) s'.
Proof.
  unfold calls_on. induction os as [|o os IH]; intros s s' H; cbn [map told]; [reflexivity|]. rewrite H. f_equal. apply IH.
  unfold enter. now rewrite Nat.eqb_refl.
Qed.

Section Programs.
  Variables (a : alg) (k : kind) (dbg : bool).
  Hypothesis Hwf : well_formed a.
  Hypothesis Hk : kind_of a = Some k.
  Let C := class a dbg.

  Lemma ran p : Forall (callable true) p -> exists st, exec C p (fun _ => c_new C) = Ok (told k p (fun _ => k_new k), st).
  Proof. intros Hp. now apply (desks_told a k dbg Hwf Hk). Qed.

  Lemma once m : span_ok m -> exists st, exec C [On 0 (AddData m); On 0 Finalize; On 0 ToVector] (fun _ => c_new C) =
    Ok ([OBytes (k_digest k (k_finalize k (k_add k m (k_new k))))], st).
  Proof. intros Hm. destruct (ran [On 0 (AddData m); On 0 Finalize; On 0 ToVector]) as (st & E); [ok|]. exists st. exact E. Qed.
  (** reset() after anything *)
  Theorem as_new p i os : (forall x, k_reset k x = k_new k) -> Forall (callable true) p -> Forall (callable true) (calls_on i os) ->
    exists rs qs st1 st2 st3, exec C p (fun _ => c_new C) = Ok (rs, st1) /\ exec C (calls_on i os) (fun _ => c_new C) = Ok (qs, st2) /\
      exec C (p ++ On i Reset :: calls_on i os) (fun _ => c_new C) = Ok (rs ++ qs, st3).
  Proof.
    intros Hr Hp Hq. destruct (ran p Hp) as (st1 & E1). destruct (ran _ Hq) as (st2 & E2).
    destruct (ran (p ++ On i Reset :: calls_on i os)) as (st3 & E3).
    { apply Forall_app. split; [exact Hp|]. constructor; [exact (fun _ => eq_refl)|exact Hq]. }
    do 5 eexists. split; [exact E1|]. split; [exact E2|]. rewrite E3, told_app. cbn [told called shows app].
    do 3 f_equal. apply told_local. unfold enter. now rewrite Nat.eqb_refl, Hr.
  Qed.
End Programs.

(** ** one finalize() *)
Definition standard_of (a : alg) : option ((list N -> list N) * (list N -> Prop)) :=
  match a with
  | Blake1_224 => Some (Blake.blake224, Blake.tail_fits 4)
  | Blake1_256 => Some (Blake.blake256, Blake.tail_fits 4)
  | Blake1_384 => Some (Blake.blake384, Blake.tail_fits 8)
  | Blake1_512 => Some (Blake.blake512, Blake.tail_fits 8)
  | Blake2 => Some (Blake2.blake2b, fun _ => True)
  | Blake2s => Some (Blake2.blake2s, fun _ => True)
  | CRC_32 => Some (fun m => be_bytes 4 (Crc32.crc32 m), fun _ => True)
  | FNV32_0 => Some (fun m => be_bytes 4 (Fnv.fnv0 32 m), fun _ => True)
  | FNV32_1 => Some (fun m => be_bytes 4 (Fnv.fnv1 32 m), fun _ => True)
  | FNV32_1a => Some (fun m => be_bytes 4 (Fnv.fnv1a 32 m), fun _ => True)
  | FNV64_0 => Some (fun m => be_bytes 8 (Fnv.fnv0 64 m), fun _ => True)
  | FNV64_1 => Some (fun m => be_bytes 8 (Fnv.fnv1 64 m), fun _ => True)
  | FNV64_1a => Some (fun m => be_bytes 8 (Fnv.fnv1a 64 m), fun _ => True)
  | MD2 => Some (Md2.md2, fun _ => True)
  | SipHash k0 k1 => Some (fun m => be_bytes 8 (SipHash.siphash 2 4 (le_bytes 8 k0 ++ le_bytes 8 k1) m), fun _ => True)
  | _ => None
  end.

Lemma through C k R h dom : Follows true k C R -> Correct C h dom -> forall m, span_ok m -> dom m ->
  k_digest k (k_finalize k (k_add k m (k_new k))) = h m.
Proof.
  intros F (ab & dn & HI) m Hm Hd.
  destruct (fo_add _ _ _ _ F _ _ m (fo_new _ _ _ _ F) Hm) as (y & E1 & Hy).
  destruct (fo_fin _ _ _ _ F _ _ Hy) as (z & E2 & Hz). destruct (fo_arr _ _ _ _ F eq_refl _ _ Hz) as (E3 & _).
  rewrite (im_new _ _ _ _ _ HI) in E1. rewrite (im_add _ _ _ _ _ HI [] m) in E1 by (exact Hm || apply Forall_nil).
  apply Crc32.Ok_inj in E1. rewrite <- E1 in E2. cbn [app] in E2. destruct Hm as [Hb _]. rewrite (im_fin _ _ _ _ _ HI m Hb Hd) in E2. apply Crc32.Ok_inj in E2.
  rewrite <- E2, (im_read _ _ _ _ _ HI m Hb Hd) in E3. apply Crc32.Ok_inj in E3. now symmetry.
Qed.

Lemma sip_words k0 k1 m : (k0 < 2 ^ 64)%N -> (k1 < 2 ^ 64)%N ->
  be_bytes 8 (Spec.SipHash.siphash 2 4 (le_bytes 8 k0 ++ le_bytes 8 k1) m) = SipHash.hash 2 4 k0 k1 m.
Proof.
  intros H0 H1. assert (le_words 8 (le_bytes 8 k0 ++ le_bytes 8 k1) = [k0; k1]) as E.
  { unfold le_words. rewrite pieces_cons, pieces_one by (apply le_bytes_length || apply Nat.lt_0_succ). cbn [map].
    rewrite !le_value_bytes. change (256 ^ N.of_nat 8)%N with (2 ^ 64)%N. now rewrite !N.mod_small. }
  unfold Spec.SipHash.siphash. rewrite E. reflexivity.
Qed.

Theorem standards a k h dom m : well_formed a -> kind_of a = Some k -> standard_of a = Some (h, dom) -> span_ok m -> dom m ->
  k_digest k (k_finalize k (k_add k m (k_new k))) = h m.
Proof.
  intros Hwf Hk Hs Hm Hd. destruct (library_desks a k false Hwf Hk) as (R & F).
  destruct a; try discriminate Hk; injection Hs as <- <-; cbn [class well_formed] in *.
  - exact (through _ _ _ _ _ F (Blake1.blake224_correct false) m Hm Hd).
  - exact (through _ _ _ _ _ F (Blake1.blake256_correct false) m Hm Hd).
  - exact (through _ _ _ _ _ F (Blake1.blake384_correct false) m Hm Hd).
  - exact (through _ _ _ _ _ F (Blake1.blake512_correct false) m Hm Hd).
  - exact (through _ _ _ _ _ F (Blake2.blake2b_all false) m Hm I).
  - exact (through _ _ _ _ _ F (Blake2.blake2s_all false) m Hm I).
  - injection Hk as <-. reflexivity.
  - injection Hk as <-. reflexivity.
  - injection Hk as <-. reflexivity.
  - injection Hk as <-. reflexivity.
  - injection Hk as <-. reflexivity.
  - injection Hk as <-. reflexivity.
  - injection Hk as <-. reflexivity.
  - exact (through _ _ _ _ _ F (Md2.md2_correct false) m Hm I).
  - destruct Hwf as [H0 H1].
    etransitivity; [exact (through _ _ _ _ _ F (ex_intro _ _ (ex_intro _ _ (SipHash.implements 2 4 false k0 k1 H0 H1))) m Hm I)|].
    symmetry. exact (sip_words k0 k1 m H0 H1).
Qed.

(** ** read-outs before finalize() *)
Definition block_of (a : alg) : option (nat * bool) :=
  match a with
  | Blake1_224 | Blake1_256 => Some (64, false)
  | Blake1_384 | Blake1_512 => Some (128, false)
  | Blake2 => Some (128, true)
  | Blake2s => Some (64, true)
  | MD2 => Some (16, false)
  | SipHash _ _ => Some (8, false)
  | _ => None
  end.
(** bytes that wait behind complete blocks *)
Definition waits (B : nat) (keeps : bool) (w : list N) : Prop := if keeps then 1 <= length w <= B else length w < B.

Lemma eager_split {Reg} B (eat : Reg -> list N -> Reg) x d r : 0 < B -> aligned B x ->
  eager B eat (x ++ d) (mkDesk [] r) = eager B eat d (mkDesk [] (fold_left eat (pieces B x) r)).
Proof.
  intros HB Ha. unfold eager, taken. cbn [waiting register app].
  assert (pre B (x ++ d) = x ++ pre B d /\ rest B (x ++ d) = rest B d) as [E1 E2].
  { rewrite <- (pre_rest B d) at 1 3. rewrite app_assoc. apply split_unique; [exact HB| |now apply rest_lt].
    apply aligned_app; auto using pre_aligned. }
  unfold pre, rest, whole in E1, E2. rewrite E1, E2. f_equal. rewrite pieces_app, fold_left_app by assumption. reflexivity.
Qed.

Lemma desk_early {Reg} B (keeps : bool) (start : Reg) eat close shown m w : 0 < B -> aligned B m -> waits B keeps w ->
  let k := desk_kind start close shown (if keeps then lazy B eat else eager B eat) in
  k_digest k (k_add k w (k_add k m (k_new k))) = shown (fold_left eat (pieces B m) start).
Proof.
  intros HB Ha Hw. destruct keeps; cbn [waits] in Hw; cbn [desk_kind k_digest k_add k_new Book].
  - unfold lazy, taken. cbn [waiting register app].
    set (n := (length m - 1) / B * B).
    assert (n <= length m /\ n mod B = 0 /\ length m - n <= B) as (Hn1 & Hn2 & Hn3).
    { split; [|split]; unfold n.
      - pose proof (Nat.mul_div_le (length m - 1) B ltac:(lia)). lia.
      - apply Nat.mod_mul. lia.
      - pose proof (Nat.div_mod (length m - 1) B ltac:(lia)). pose proof (Nat.mod_upper_bound (length m - 1) B ltac:(lia)). lia. }
    clearbody n.
    assert (aligned B (skipn n m)) as Hs.
    { unfold aligned in *. rewrite skipn_length. rewrite <- (firstn_skipn n m) in Ha. rewrite app_length, firstn_length_le, skipn_length in Ha by lia.
      rewrite <- Nat.add_mod_idemp_l, Hn2 in Ha by lia. exact Ha. }
    destruct (Delayed.split_last B (skipn n m) w HB Hs Hw) as [E1 _].
    unfold Delayed.before, Delayed.keep in E1. rewrite E1. rewrite <- fold_left_app, <- pieces_app.
    + now rewrite firstn_skipn.
    + exact HB.
    + unfold aligned. now rewrite firstn_length_le by lia.
  - rewrite <- (app_nil_r m) at 1. rewrite eager_split by assumption.
    assert (forall r, eager B eat [] (mkDesk [] r) = mkDesk [] r) as E0.
    { intros r. unfold eager, taken. cbn [waiting register app length]. rewrite Nat.div_0_l by lia. reflexivity. }
    rewrite E0. unfold eager, taken. cbn [waiting register app].
    rewrite Nat.div_small by exact Hw. reflexivity.
Qed.

Lemma desk_same {Reg} B (keeps : bool) (start : Reg) eat close shown m w w' : 0 < B -> aligned B m -> waits B keeps w -> waits B keeps w' ->
  let k := desk_kind start close shown (if keeps then lazy B eat else eager B eat) in
  k_digest k (k_add k w (k_add k m (k_new k))) = k_digest k (k_add k w' (k_add k m (k_new k))).
Proof. intros HB Ha H H' k. unfold k. now rewrite !desk_early. Qed.

Theorem early a k dbg B keeps m w w' : well_formed a -> kind_of a = Some k -> block_of a = Some (B, keeps) ->
  span_ok m -> span_ok w -> span_ok w' -> length m mod B = 0 -> waits B keeps w -> waits B keeps w' ->
  exists o st st', exec (class a dbg) [On 0 (AddData m); On 0 (AddData w); On 0 ToVector] (fun _ => c_new (class a dbg)) = Ok ([o], st) /\
    exec (class a dbg) [On 0 (AddData m); On 0 (AddData w'); On 0 ToVector] (fun _ => c_new (class a dbg)) = Ok ([o], st').
Proof.
  intros Hwf Hk HB Hm Hw Hw' Ha L L'.
  destruct (ran a k dbg Hwf Hk [On 0 (AddData m); On 0 (AddData w); On 0 ToVector]) as (st & E); [ok|].
  destruct (ran a k dbg Hwf Hk [On 0 (AddData m); On 0 (AddData w'); On 0 ToVector]) as (st' & E'); [ok|].
  exists (OBytes (k_digest k (k_add k w (k_add k m (k_new k))))), st, st'. split; [exact E|]. rewrite E'.
  cbn [told called shows app]. do 4 f_equal. change (enter k (fun _ : nat => k_new k) 0 (k_add k m (k_new k)) 0) with (k_add k m (k_new k)).
  destruct a; try discriminate HB; injection HB as <- <-; injection Hk as <-; unfold enter; cbn [Nat.eqb].
  - apply (desk_same 64 false); [lia|exact Ha|exact L'|exact L].
  - apply (desk_same 64 false); [lia|exact Ha|exact L'|exact L].
  - apply (desk_same 128 false); [lia|exact Ha|exact L'|exact L].
  - apply (desk_same 128 false); [lia|exact Ha|exact L'|exact L].
  - apply (desk_same 128 true); [lia|exact Ha|exact L'|exact L].
  - apply (desk_same 64 true); [lia|exact Ha|exact L'|exact L].
  - apply (desk_same 16 false); [lia|exact Ha|exact L'|exact L].
  - apply (desk_same 8 false); [lia|exact Ha|exact L'|exact L].
Qed.

(** ** CRC-32: finalize() undoes finalize() *)
Lemma crc_sound p : Forall (callable true) p -> forall s, (forall i, bnd 32 (s i)) -> forall i, bnd 32 (left crc_kind p s i).
Proof.
  assert (forall v, bnd 32 (compl 32 v)) as Hc.
  { intros v. unfold compl, bnd. change (2 ^ 32)%N with 4294967296%N. lia. }
  induction 1 as [|[i o|i j] p Hc0 Hp IH]; intros s Hs; cbn [left]; [exact Hs| |].
  - apply IH. intros n. unfold enter. destruct (n =? i); [|apply Hs]. destruct o; cbn [called]; try apply Hs.
    + cbn [crc_kind Ledger.k_add]. destruct Hc0 as [Hb _]. rewrite Crc32.remainder_bytes by exact Hb. now apply Crc32.feeds_bnd.
    + apply Hc.
    + reflexivity.
  - apply IH. intros n. unfold enter. destruct (n =? i); apply Hs.
Qed.
Theorem crc_twice dbg p q i : Forall (callable true) p -> Forall (callable true) q ->
  exists rs st st', exec (class CRC_32 dbg) (p ++ q) (fun _ => c_new (class CRC_32 dbg)) = Ok (rs, st) /\
    exec (class CRC_32 dbg) (p ++ On i Finalize :: On i Finalize :: q) (fun _ => c_new (class CRC_32 dbg)) = Ok (rs, st').
Proof.
  intros Hp Hq.
  destruct (ran CRC_32 crc_kind dbg I eq_refl (p ++ q)) as (st & E); [now apply Forall_app|].
  destruct (ran CRC_32 crc_kind dbg I eq_refl (p ++ On i Finalize :: On i Finalize :: q)) as (st' & E').
  { apply Forall_app. split; [exact Hp|]. constructor; [exact (fun _ => eq_refl)|]. constructor; [exact (fun _ => eq_refl)|exact Hq]. }
  do 3 eexists. split; [exact E|]. rewrite E'. do 2 f_equal. rewrite !told_app. f_equal. cbn [told called shows app].
  apply told_ext. intros n. unfold enter. rewrite Nat.eqb_refl. destruct (Nat.eqb_spec n i) as [->|]; [|reflexivity].
  cbn [crc_kind k_finalize]. apply Crc32Algebra.compl_compl. apply crc_sound; [exact Hp|]. intros j. reflexivity.
Qed.

(** ** FNV: finalize() does nothing, and the reset() of FNV-0 does nothing *)
Definition is_fnv (a : alg) : bool :=
  match a with FNV32_0 | FNV32_1 | FNV32_1a | FNV64_0 | FNV64_1 | FNV64_1a => true | _ => false end.
Definition is_fnv0 (a : alg) : bool := match a with FNV32_0 | FNV64_0 => true | _ => false end.
Definition finalizes (o : op) : bool := match o with Finalize => true | _ => false end.
Definition resets (o : op) : bool := match o with Reset => true | _ => false end.

Lemma unneeded a k dbg f p : well_formed a -> kind_of a = Some k -> Forall (callable true) p ->
  (forall o, f o = true -> (forall d, shows d o = []) /\ forall x, called k o x = x) ->
  exists rs st st', exec (class a dbg) p (fun _ => c_new (class a dbg)) = Ok (rs, st) /\
    exec (class a dbg) (without f p) (fun _ => c_new (class a dbg)) = Ok (rs, st').
Proof.
  intros Hwf Hk Hp H. destruct (ran a k dbg Hwf Hk p Hp) as (st & E).
  destruct (ran a k dbg Hwf Hk (without f p) (callable_without f p Hp)) as (st' & E').
  do 3 eexists. split; [exact E|]. rewrite E'. now rewrite told_without.
Qed.
Theorem fnv_finalize a dbg p : is_fnv a = true -> Forall (callable true) p ->
  exists rs st st', exec (class a dbg) p (fun _ => c_new (class a dbg)) = Ok (rs, st) /\
    exec (class a dbg) (without finalizes p) (fun _ => c_new (class a dbg)) = Ok (rs, st').
Proof.
  intros Ha Hp. destruct a; try discriminate Ha;
    (eapply unneeded; [exact I|reflexivity|exact Hp|]; intros []; try discriminate; intros _; split; reflexivity).
Qed.
Theorem fnv0_reset a dbg p : is_fnv0 a = true -> Forall (callable true) p ->
  exists rs st st', exec (class a dbg) p (fun _ => c_new (class a dbg)) = Ok (rs, st) /\
    exec (class a dbg) (without resets p) (fun _ => c_new (class a dbg)) = Ok (rs, st').
Proof.
  intros Ha Hp. destruct a; try discriminate Ha;
    (eapply unneeded; [exact I|reflexivity|exact Hp|]; intros []; try discriminate; intros _; split; reflexivity).
Qed.

Theorem anew a k dbg p i os : well_formed a -> kind_of a = Some k -> is_fnv0 a = false ->
  Forall (callable true) p -> Forall (callable true) (calls_on i os) ->
  exists rs qs st1 st2 st3, exec (class a dbg) p (fun _ => c_new (class a dbg)) = Ok (rs, st1) /\
    exec (class a dbg) (calls_on i os) (fun _ => c_new (class a dbg)) = Ok (qs, st2) /\
    exec (class a dbg) (p ++ On i Reset :: calls_on i os) (fun _ => c_new (class a dbg)) = Ok (rs ++ qs, st3).
Proof.
  intros Hwf Hk H0 Hp Hq. apply (as_new a k dbg Hwf Hk p i os); [|exact Hp|exact Hq].
  destruct a; try discriminate Hk; try discriminate H0; injection Hk as <-; intros x; reflexivity.
Qed.

(** ** MD2: finalize() goes on with the checksum *)
Lemma fold_pair {X Y Z} (f : X -> Z -> X) (g : Y -> Z -> Y) l : forall x y,
  fold_left (fun r b => (f (fst r) b, g (snd r) b)) l (x, y) = (fold_left f l x, fold_left g l y).
Proof. induction l as [|b l IH]; intros x y; cbn [fold_left]; [reflexivity|]. apply IH. Qed.
Lemma md2_fold bs X C : fold_left md2_eat bs (X, C) = (fold_left Spec.Md2.absorb_block bs X, fold_left Spec.Md2.checksum_block bs C).
Proof. exact (fold_pair Spec.Md2.absorb_block Spec.Md2.checksum_block bs X C). Qed.
Lemma pad_parts m : Spec.Md2.pad m = pre 16 m ++ Spec.Md2.pad (rest 16 m).
Proof.
  rewrite Md2.pad_split. f_equal. unfold Spec.Md2.pad. rewrite rest_length, Nat.mod_mod by lia. reflexivity.
Qed.
Lemma pad_short w : length w < 16 -> length (Spec.Md2.pad w) = 16.
Proof. intros H. unfold Spec.Md2.pad. rewrite app_length, repeat_length, Nat.mod_small by exact H. lia. Qed.
(** what finalize() makes of the bytes since the last one *)
Lemma md2_closed m r :
  let o := eager 16 md2_eat m (mkDesk [] r) in
  let r' := fold_left md2_eat (pieces 16 (Spec.Md2.pad m)) r in
  md2_close (register o) (waiting o) = md2_eat r' (snd r').
Proof.
  unfold eager, taken. cbn [waiting register app]. fold (whole 16 m) (pre 16 m) (rest 16 m).
  rewrite (pad_parts m), pieces_app, fold_left_app by (lia || (apply pre_aligned; lia)).
  rewrite (pieces_one 16 (Spec.Md2.pad (rest 16 m))) by (lia || (apply pad_short, rest_lt; lia)). reflexivity.
Qed.
Lemma md2_start m : fold_left md2_eat (pieces 16 m) (repeat 0%N 48, repeat 0%N 16) =
  (fold_left Spec.Md2.absorb_block (pieces 16 m) (repeat 0%N 48), Spec.Md2.checksum m).
Proof. apply md2_fold. Qed.
Lemma checksum_length m : aligned 16 m -> length (Spec.Md2.checksum m) = 16.
Proof.
  intros H. unfold Spec.Md2.checksum. pose proof (pieces_all 16 m ltac:(lia) H) as Hp.
  assert (length (repeat 0%N 16) = 16) as H0 by reflexivity. revert H0. generalize (repeat 0%N 16).
  induction Hp as [|b bs Hb Hbs IH]; intros C HC; cbn [fold_left]; [exact HC|]. apply IH.
  unfold Spec.Md2.checksum_block. rewrite Md2.mix_length by congruence. exact HC.
Qed.
Lemma md2_desk m : let o := eager 16 md2_eat m (mkDesk [] (repeat 0%N 48, repeat 0%N 16)) in
  register (mkDesk [] (md2_close (register o) (waiting o))) =
  fold_left md2_eat (pieces 16 (Spec.Md2.pad m ++ Spec.Md2.checksum (Spec.Md2.pad m))) (repeat 0%N 48, repeat 0%N 16).
Proof.
  intros o. unfold o. cbn [register]. rewrite md2_closed.
  rewrite pieces_app, fold_left_app by (lia || apply Md2.pad_aligned). rewrite md2_start. cbn [snd].
  rewrite (pieces_one 16 (Spec.Md2.checksum (Spec.Md2.pad m))); [reflexivity|lia|]. apply checksum_length. apply Md2.pad_aligned.
Qed.

Lemma md2_shown m : let o := eager 16 md2_eat m (mkDesk [] (repeat 0%N 48, repeat 0%N 16)) in
  firstn 16 (fst (register (mkDesk [] (md2_close (register o) (waiting o))))) = Spec.Md2.md2 m.
Proof. intros o. unfold o. rewrite md2_desk, md2_start. reflexivity. Qed.

Theorem md2_again dbg m d : span_ok m -> span_ok d ->
  exists st, exec (class MD2 dbg) [On 0 (AddData m); On 0 Finalize; On 0 (AddData d); On 0 Finalize; On 0 ToVector] (fun _ => c_new (class MD2 dbg)) =
    Ok ([OBytes (Spec.Md2.md2 (Spec.Md2.pad m ++ Spec.Md2.checksum (Spec.Md2.pad m) ++ d))], st).
Proof.
  intros Hm Hd.
  destruct (ran MD2 md2_kind dbg I eq_refl [On 0 (AddData m); On 0 Finalize; On 0 (AddData d); On 0 Finalize; On 0 ToVector]) as (st & E); [ok|].
  exists st. rewrite E. do 2 f_equal. clear E st. cbn [told called shows app]. unfold enter. cbn [Nat.eqb]. do 2 f_equal.
  cbn [md2_kind desk_kind k_digest k_finalize Ledger.k_add k_new Book].
  rewrite app_assoc. set (x := Spec.Md2.pad m ++ Spec.Md2.checksum (Spec.Md2.pad m)).
  rewrite <- (md2_shown (x ++ d)). rewrite eager_split; [|lia|].
  - unfold x. rewrite <- md2_desk. reflexivity.
  - apply aligned_app; [lia|apply Md2.pad_aligned|]. unfold aligned. rewrite checksum_length; [reflexivity|apply Md2.pad_aligned].
Qed.

(** ** SipHash: before eight bytes have come the read-out says nothing *)
Lemma blank k0 k1 a b c d : N.lxor (N.lxor k0 a) (N.lxor (N.lxor k1 b) (N.lxor (N.lxor k0 c) (N.lxor k1 d))) = N.lxor a (N.lxor b (N.lxor c d)).
Proof.
  apply N.bits_inj. intros n. rewrite !N.lxor_spec.
  destruct (N.testbit k0 n), (N.testbit k1 n), (N.testbit a n), (N.testbit b n), (N.testbit c n), (N.testbit d n); reflexivity.
Qed.
Theorem sip_early dbg k0 k1 m : (k0 < 2 ^ 64)%N -> (k1 < 2 ^ 64)%N -> bytes_ok m -> length m < 8 ->
  exists st, exec (class (SipHash k0 k1) dbg) [On 0 (AddData m); On 0 ToVector] (fun _ => c_new (class (SipHash k0 k1) dbg)) =
    Ok ([OBytes [15; 28; 28; 3; 9; 6; 29; 10]%N], st).
Proof.
  intros H0 H1 Hb Hl. assert (span_ok m) as Hm.
  { split; [exact Hb|]. change (2 ^ 64)%N with 18446744073709551616%N. lia. }
  destruct (ran (SipHash k0 k1) (sip_kind 2 4 k0 k1) dbg (conj H0 H1) eq_refl [On 0 (AddData m); On 0 ToVector]) as (st & E); [ok|].
  exists st. rewrite E. do 2 f_equal. clear E st. cbn [told called shows app]. unfold enter. cbn [Nat.eqb]. do 2 f_equal.
  cbn [sip_kind desk_kind k_digest k_finalize Ledger.k_add k_new Book]. unfold eager, taken. cbn [waiting register app].
  rewrite Nat.div_small by exact Hl. cbn [Nat.mul firstn]. change (pieces 8 (@nil N)) with (@nil (list N)). cbn [fold_left].
  change (sip_shown (Spec.SipHash.initial k0 k1, 0%N)) with
    (be_bytes 8 (N.lxor (N.lxor k0 8317987319222330741%N) (N.lxor (N.lxor k1 7237128888997146477%N) (N.lxor (N.lxor k0 7816392313619706465%N) (N.lxor k1 8387220255154660723%N))))).
  rewrite blank. reflexivity.
Qed.
