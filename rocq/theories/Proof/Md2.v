(** The MD2 code computes RFC 1319. *)
From Coq Require Import List NArith Arith Bool Lia ZArith ZifyNat.
From Verif.Base Require Import Res CWord.
From Verif.Spec Require Import Words Client Merkle.
From Verif.Model Require Import Buffer Stream Api.
From Verif.Model.Gen Require Import Md2Tables.
From Verif.Proof Require Import Words Streaming Blocks Rounds Api StreamClass.
From Verif.Spec Require Md2.
From Verif.Model Require Md2.
Import ListNotations.
Module S := Verif.Spec.Md2.
Module M := Verif.Model.Md2.

Lemma subst_ok x : bnd 8 x -> M.subst x = Ok (S.S x).
Proof.
  intros H. unfold M.subst, S.S. change piSubst with S.PI_SUBST. apply aget_ok.
  change (length S.PI_SUBST) with 256. unfold bnd in H. change (2 ^ 8)%N with 256%N in H. lia.
Qed.

Lemma S_bnd x : bnd 8 (S.S x).
Proof. apply Forall_nth_bnd, Forall_bndb. vm_compute. reflexivity. Qed.

Lemma mix_length L C b : length C = length b -> length (S.mix_checksum L C b) = length C.
Proof.
  revert L b; induction C as [|c C IH]; intros L [|x b] H; cbn in *; try discriminate; auto.
Qed.
Lemma mix_bnd L C b : Forall (bnd 8) C -> Forall (bnd 8) (S.mix_checksum L C b).
Proof.
  intros H; revert L b; induction H as [|c C Hc HC IH]; intros L [|x b]; cbn; constructor; auto.
  apply bnd_lxor; [exact Hc|apply S_bnd].
Qed.

Lemma last_app_ne {A} (d1 d2 : A) x y : y <> [] -> last (x ++ y) d1 = last y d2.
Proof.
  induction x as [|a x IH]; intros H; cbn [app].
  - induction y as [|b y IHy]; [congruence|]. destruct y; [reflexivity|]. cbn in *. apply IHy. discriminate.
  - destruct (x ++ y) eqn:E; [destruct x; cbn in E; congruence|]. rewrite <- IH by exact H. reflexivity.
Qed.

Lemma checksum_gen : forall todo mt done md L, length todo = length mt -> length done = length md ->
  Forall (bnd 8) todo -> Forall (bnd 8) mt -> bnd 8 L ->
  for_ (length done) (length todo) (fun j (s : list N * N) =>
    let (c, L) := s in
    let! cj := aget c j in
    let! mj := aget (md ++ mt) j in
    let! p := M.subst (N.lxor mj L) in
    let v := trunc 8 (N.lxor cj p) in
    let! c := aset c j v in
    Ok (c, v)) (done ++ todo, L) = Ok (done ++ S.mix_checksum L todo mt, last (S.mix_checksum L todo mt) L).
Proof.
  induction todo as [|c todo IH]; intros mt done md L Hl Hd Ht Hm HL.
  - destruct mt; reflexivity.
  - destruct mt as [|b mt]; [discriminate|]. cbn [length for_]. inversion Ht; subst. inversion Hm; subst.
    rewrite aget_mid by reflexivity. rewrite bind_ok. rewrite aget_mid by (symmetry; exact Hd). rewrite bind_ok.
    rewrite subst_ok by (apply bnd_lxor; assumption). rewrite bind_ok.
    rewrite trunc_id by (apply bnd_lxor; [assumption|apply S_bnd]).
    rewrite aset_mid by reflexivity. rewrite bind_ok. cbn [S.mix_checksum].
    set (v := N.lxor c (S.S (N.lxor b L))).
    assert (bnd 8 v) as Hv by (apply bnd_lxor; [assumption|apply S_bnd]).
    pose proof (IH mt (done ++ [v]) (md ++ [b]) v) as G. rewrite <- !app_assoc, !app_length in G. cbn [app length] in G.
    replace (S (length done)) with (length done + 1) by lia. refine (eq_trans (G _ _ _ _ _) _); try assumption.
    + cbn in Hl; lia.
    + lia.
    + rewrite last_cons. reflexivity.
Qed.

Lemma checksum_ok C blk L : length C = 16 -> length blk = 16 -> Forall (bnd 8) C -> Forall (bnd 8) blk ->
  L = last C 0%N ->
  M.checksum_loop blk (C, L) = Ok (S.checksum_block C blk, last (S.checksum_block C blk) 0%N).
Proof.
  intros HC Hb H1 H2 ->. unfold M.checksum_loop, S.checksum_block.
  assert (bnd 8 (last C 0%N)) as HL.
  { destruct C as [|c C] using rev_ind; [discriminate|]. rewrite last_last. apply Forall_app in H1 as [_ H1].
    now inversion H1. }
  pose proof (checksum_gen C blk [] [] (last C 0%N)) as G. rewrite HC in G. cbn [app length] in G.
  refine (eq_trans (G _ _ _ _ _) _); auto. f_equal. f_equal.
  set (l := S.mix_checksum _ _ _).
  assert (length l = 16) as Hl by (unfold l; rewrite mix_length; congruence).
  destruct l as [|a l]; [discriminate|]. rewrite !last_cons. reflexivity.
Qed.

Definition spread (X blk : list N) : list N :=
  firstn 16 X ++ blk ++ map (fun '(a, b) => N.lxor a b) (combine blk (firstn 16 X)).

Lemma copy_ok X blk : length X = 48 -> length blk = 16 -> M.copy_loop blk X = Ok (spread X blk).
Proof.
  intros HX Hb. rewrite (list_as_nth 0%N X 48 HX), (list_as_nth 0%N blk 16 Hb).
  generalize (fun i => nth i X 0%N) (fun i => nth i blk 0%N). intros f g. reflexivity.
Qed.

Lemma pass_length t X : length (S.pass t X) = length X.
Proof. revert t; induction X as [|x X IH]; intros t; cbn; auto. Qed.
Lemma pass_bnd t X : Forall (bnd 8) X -> Forall (bnd 8) (S.pass t X).
Proof.
  intros H; revert t; induction H as [|x X Hx HX IH]; intros t; cbn; constructor; auto.
  apply bnd_lxor; [exact Hx|apply S_bnd].
Qed.

Lemma pass_gen : forall todo done t, Forall (bnd 8) todo -> bnd 8 t ->
  for_ (length done) (length todo) (fun k (s : list N * N) =>
      let (x, t) := s in
      let! p := M.subst t in
      let! xk := aget x k in
      let v := N.lxor xk p in
      let! x := aset x k v in
      Ok (x, v)) (done ++ todo, t) = Ok (done ++ S.pass t todo, last (S.pass t todo) t).
Proof.
  induction todo as [|c todo IH]; intros done t Ht HL; [reflexivity|].
  cbn [length for_]. inversion Ht; subst.
  rewrite subst_ok by assumption. rewrite bind_ok. rewrite aget_mid by reflexivity. rewrite bind_ok.
  rewrite aset_mid by reflexivity. rewrite bind_ok. cbn [S.pass].
  set (v := N.lxor c (S.S t)).
  assert (bnd 8 v) as Hv by (apply bnd_lxor; [assumption|apply S_bnd]).
  pose proof (IH (done ++ [v]) v) as G. rewrite <- !app_assoc, !app_length in G. cbn [app length] in G.
  replace (S (length done)) with (length done + 1) by lia. refine (eq_trans (G _ _) _); try assumption.
  rewrite last_cons. reflexivity.
Qed.

Definition st_ok (s : list N * N) : Prop := length (fst s) = 48 /\ Forall (bnd 8) (fst s) /\ bnd 8 (snd s).

Lemma last_bnd w l : Forall (bnd w) l -> bnd w (last l 0%N).
Proof.
  intros H. destruct l as [|c C _] using rev_ind; [apply bnd_0|]. rewrite last_last.
  apply Forall_app in H as [_ H]. now inversion H.
Qed.

Lemma round_ok s j : st_ok s ->
  (let! s := for_ 0 48 (fun k (s : list N * N) =>
      let (x, t) := s in
      let! p := M.subst t in
      let! xk := aget x k in
      let v := N.lxor xk p in
      let! x := aset x k v in
      Ok (x, v)) s in
    Ok (fst s, trunc 8 (snd s + N.of_nat j))) = Ok (S.round s j) /\ st_ok (S.round s j).
Proof.
  destruct s as [X t]. intros (Hl & HX & Ht). cbn [fst snd] in *.
  pose proof (pass_gen X [] t HX Ht) as G. rewrite Hl in G. cbn [app length] in G.
  refine (let E := eq_trans (f_equal (fun r => bind r _) G) (bind_ok _ _) in _). split; [refine (eq_trans E _)|]; clear E.
  all: unfold S.round. cbn [fst snd].
  - rewrite trunc_mod. change (2 ^ 8)%N with 256%N. do 4 f_equal.
    pose proof (pass_length t X) as Hp. destruct (S.pass t X); [rewrite Hl in Hp; discriminate|].
    now rewrite !last_cons.
  - split; [|split]; cbn [fst snd].
    + rewrite pass_length. exact Hl.
    + apply pass_bnd, HX.
    + apply bnd_mod.
Qed.

Lemma rounds_ok s : st_ok s ->
  M.round_loop s = Ok (fold_left S.round (seq 0 18) s) /\ st_ok (fold_left S.round (seq 0 18) s).
Proof.
  intros Hs. unfold M.round_loop. rewrite <- foldM_seq.
  apply (foldM_fold st_ok (fun j s => S.round s j)); [exact Hs|].
  intros j s' _ Hs'. apply round_ok, Hs'.
Qed.

Definition inv (s : M.St) : Prop :=
  length (M.m_x s) = 48 /\ Forall (bnd 8) (M.m_x s) /\
  length (M.m_checksum s) = 16 /\ Forall (bnd 8) (M.m_checksum s) /\ M.m_checksumL s = last (M.m_checksum s) 0%N.

Definition cf (s : M.St) (blk : list N) : M.St :=
  M.mkSt (S.absorb_block (M.m_x s) blk) (S.checksum_block (M.m_checksum s) blk)
    (last (S.checksum_block (M.m_checksum s) blk) 0%N).

Lemma Forall_combine_xor x y : Forall (bnd 8) x -> Forall (bnd 8) y ->
  Forall (bnd 8) (map (fun '(a, b) => N.lxor a b) (combine x y)).
Proof.
  intros H; revert y; induction H as [|a x Ha Hx IH]; intros [|b y] Hy; cbn; constructor.
  - apply bnd_lxor; [exact Ha|now inversion Hy].
  - apply IH. now inversion Hy.
Qed.

Lemma compress_ok blk tl s : inv s -> length blk = 16 -> bytes_ok blk ->
  M.compress (blk ++ tl) s = Ok (cf s blk) /\ inv (cf s blk).
Proof.
  intros (H1 & H2 & H3 & H4 & H5) Hb Hok. unfold M.compress.
  replace (firstn 16 (blk ++ tl)) with blk
    by (rewrite <- Hb, firstn_app, Nat.sub_diag, firstn_all; cbn; now rewrite app_nil_r).
  assert (Forall (bnd 8) blk) as Hbb by exact Hok.
  rewrite checksum_ok by assumption. rewrite bind_ok. rewrite copy_ok by assumption. rewrite bind_ok.
  assert (length (firstn 16 (M.m_x s)) = 16) as Hf by (apply firstn_length_le; lia).
  assert (Forall (bnd 8) (firstn 16 (M.m_x s))) as Hfb by (apply bytes_ok_firstn, H2).
  destruct (rounds_ok (spread (M.m_x s) blk, 0%N)) as [-> (I1 & I2 & I3)].
  { split; [|split]; cbn [fst snd]; unfold spread.
    - rewrite !app_length, map_length, combine_length, Hf, Hb. reflexivity.
    - apply Forall_app; split; [exact Hfb|]. apply Forall_app; split; [exact Hbb|].
      apply Forall_combine_xor; assumption.
    - apply bnd_0. }
  rewrite bind_ok. cbn [fst snd]. split; [unfold cf, S.absorb_block, spread; reflexivity|].
  unfold inv, cf. cbn [M.m_x M.m_checksum M.m_checksumL].
  split; [exact I1|]. split; [exact I2|]. split; [|split; [|reflexivity]].
  - unfold S.checksum_block. rewrite mix_length; congruence.
  - apply mix_bnd, H4.
Qed.

Definition run (d : list N) (s : M.St) : M.St := chain 16 cf s d.

Lemma impl_ok d s : inv s -> bytes_ok d -> aligned 16 d -> M.addDataImpl d s = Ok (run d s) /\ inv (run d s).
Proof.
  intros Hs Hd Ha. unfold M.addDataImpl, run.
  apply (block_loop_ok 16 M.compress cf inv); auto; [lia|]. intros. apply compress_ok; assumption.
Qed.

Lemma run_app x y s : aligned 16 x -> run (x ++ y) s = run y (run x s).
Proof. intros H. unfold run, chain. rewrite pieces_app by (auto; lia). apply fold_left_app. Qed.

Lemma cf_x s b : M.m_x (cf s b) = S.absorb_block (M.m_x s) b.
Proof. reflexivity. Qed.
Lemma cf_c s b : M.m_checksum (cf s b) = S.checksum_block (M.m_checksum s) b.
Proof. reflexivity. Qed.

Lemma run_parts d s : M.m_x (run d s) = fold_left S.absorb_block (pieces 16 d) (M.m_x s) /\
  M.m_checksum (run d s) = fold_left S.checksum_block (pieces 16 d) (M.m_checksum s).
Proof. split; apply fold_proj; [exact cf_x|exact cf_c]. Qed.

Lemma run_nil s : run [] s = s.
Proof. reflexivity. Qed.

Opaque S.absorb_block S.checksum_block.
Lemma inv_init : inv M.init.
Proof. repeat split; try reflexivity; apply Forall_bndb; reflexivity. Qed.

Definition state (m : list N) : M.St := run (S.pad m) M.init.
Definition done (m : list N) : Buffer * M.St := (buf_new 32, run (M.m_checksum (state m)) (state m)).

Lemma pad_split m : S.pad m = pre 16 m ++ rest 16 m ++ repeat (N.of_nat (16 - length m mod 16)) (16 - length m mod 16).
Proof. unfold S.pad. now rewrite app_assoc, pre_rest. Qed.

Lemma tail_length m : length (rest 16 m ++ repeat (N.of_nat (16 - length m mod 16)) (16 - length m mod 16)) = 16.
Proof.
  rewrite app_length, repeat_length, rest_length by lia.
  pose proof (Nat.mod_upper_bound (length m) 16 ltac:(lia)). lia.
Qed.
Lemma tail_bytes m : bytes_ok m ->
  bytes_ok (rest 16 m ++ repeat (N.of_nat (16 - length m mod 16)) (16 - length m mod 16)).
Proof.
  intros H. apply bytes_ok_app; split; [apply bytes_ok_rest, H|]. apply bytes_ok_repeat. lia.
Qed.

Lemma state_ok m : bytes_ok m -> inv (state m).
Proof.
  intros H. unfold state. apply impl_ok; [apply inv_init| |].
  - rewrite pad_split. apply bytes_ok_app; split; [apply bytes_ok_pre, H|apply tail_bytes, H].
  - rewrite pad_split. apply aligned_app; [lia|apply pre_aligned; lia|]. unfold aligned. rewrite tail_length. reflexivity.
Qed.

Lemma finalize_ok dbg m : bytes_ok m -> M.finalize dbg (absorb 16 32 run M.init m) = Ok (done m).
Proof.
  intros Hm. unfold M.finalize, absorb. rewrite canon_size, rest_length by lia.
  rewrite Nat.mod_mod by lia.
  pose proof (Nat.mod_upper_bound (length m) 16 ltac:(lia)) as Hlt.
  set (k := 16 - length m mod 16) in *. assert (1 <= k <= 16) as Hk by (unfold k; lia).
  pose proof (tail_length m) as Htl. fold k in Htl. pose proof (tail_bytes m Hm) as Htb. fold k in Htb.
  rewrite trunc_id by (unfold bnd; change (2 ^ 8)%N with 256%N; lia).
  rewrite app_length, repeat_length in Htl.
  rewrite fill_canon by lia. rewrite bind_ok, canon_span.
  assert (inv (run (pre 16 m) M.init)) as Hi.
  { apply impl_ok; [apply inv_init|apply bytes_ok_pre, Hm|apply pre_aligned; lia]. }
  destruct (impl_ok (rest 16 m ++ repeat (N.of_nat k) k) _ Hi Htb) as [-> _].
  { unfold aligned. rewrite app_length, repeat_length, Htl. reflexivity. }
  rewrite bind_ok. rewrite <- run_app by (apply pre_aligned; lia).
  replace (pre 16 m ++ rest 16 m ++ repeat (N.of_nat k) k) with (S.pad m) by (rewrite pad_split; reflexivity).
  fold (state m). destruct (state_ok m Hm) as (I1 & I2 & I3 & I4 & I5).
  destruct (impl_ok (M.m_checksum (state m)) (state m)) as [-> _].
  - repeat split; assumption.
  - exact I4.
  - unfold aligned. rewrite I3. reflexivity.
  - rewrite bind_ok. unfold done. do 2 f_equal. rewrite canon_clear by (rewrite app_length, repeat_length; lia).
    apply canon_nil.
Qed.

Lemma read_ok m : bytes_ok m -> M.toArray (snd (done m)) = Ok (S.md2 m) /\ bytes_ok (S.md2 m).
Proof.
  intros Hm. pose proof (state_ok m Hm) as Hs. cbn [done snd].
  destruct Hs as (I1 & I2 & I3 & I4 & I5).
  assert (inv (run (M.m_checksum (state m)) (state m))) as (J1 & J2 & _).
  { apply impl_ok; [repeat split; assumption|exact I4|unfold aligned; rewrite I3; reflexivity]. }
  assert (S.md2 m = firstn 16 (M.m_x (run (M.m_checksum (state m)) (state m)))) as E.
  { unfold S.md2. f_equal. rewrite (proj1 (run_parts _ _)).
    rewrite pieces_app, fold_left_app; [|lia|].
    - f_equal.
      + f_equal. unfold state. rewrite (proj2 (run_parts _ _)). reflexivity.
      + unfold state. rewrite (proj1 (run_parts _ _)). reflexivity.
    - rewrite pad_split. apply aligned_app; [lia|apply pre_aligned; lia|]. unfold aligned. now rewrite tail_length. }
  split.
  - rewrite E. unfold M.toArray. generalize dependent (M.m_x (run (M.m_checksum (state m)) (state m))). intros x J1 _ _.
    rewrite (mapM_ok _ (fun i => nth i x 0%N)).
    + f_equal. exact (eq_sym (f_equal (firstn 16) (list_as_nth 0%N x 48 J1))).
    + intros i Hi. apply in_seq in Hi. apply aget_ok. lia.
  - rewrite E. apply bytes_ok_firstn. exact J2.
Qed.

Theorem md2_implements dbg : Implements (M.cls dbg) S.md2 (fun _ => True) (absorb 16 32 run M.init) done.
Proof.
  unfold M.cls.
  apply (stream_implements 16 32 dbg M.addDataImpl inv run M.init).
  - lia.
  - lia.
  - apply inv_init.
  - reflexivity.
  - intros d s Hs [Hd _] Ha. apply impl_ok; assumption.
  - intros d s Hs Hd Ha. apply impl_ok; assumption.
  - intros. apply run_app. assumption.
  - reflexivity.
  - intros m Hm _. apply finalize_ok, Hm.
  - intros m Hm _. apply read_ok, Hm.
  - intros m Hm _. reflexivity.
Qed.
Theorem md2_correct dbg : Correct (M.cls dbg) S.md2 (fun _ => True).
Proof. eexists; eexists; apply md2_implements. Qed.

(** the buffer when finalize() has run *)
Lemma pad_aligned m : aligned 16 (S.pad m).
Proof. rewrite pad_split. apply aligned_app; [lia|apply pre_aligned; lia|]. unfold aligned. now rewrite tail_length. Qed.
Lemma done_x m : M.m_x (snd (done m)) = fold_left S.absorb_block (pieces 16 (S.pad m ++ S.checksum (S.pad m))) (repeat 0%N 48).
Proof.
  cbn [done snd]. rewrite (proj1 (run_parts _ _)), pieces_app, fold_left_app; [|lia|apply pad_aligned]. f_equal.
  - f_equal. unfold state. rewrite (proj2 (run_parts _ _)). reflexivity.
  - unfold state. rewrite (proj1 (run_parts _ _)). reflexivity.
Qed.
