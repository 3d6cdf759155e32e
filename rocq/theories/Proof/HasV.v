(** unfinished/has_v_320.cpp computes the function of Spec/HasV. *)
From Coq Require Import List NArith Arith Bool Lia.
From Verif.Base Require Import Res CWord.
From Verif.Spec Require Import Words Client Merkle.
From Verif.Spec Require HasV.
From Verif.Model Require Import Stream Api Call.
From Verif.Model.Gen Require Import HasVCalls HasVTables.
From Verif.Model Require HasV.
From Verif.Proof Require Import Words Streaming Blocks Api MD Rounds Regs Class.
Import ListNotations.
Module S := Verif.Spec.HasV.
Module M := Verif.Model.HasV.
Local Open Scope N_scope.

(** ** the unrolled calls are regular *)

Definition left_call (r i : nat) : call fn :=
  Call lineLeft (regs_of 5 (i mod 5)) [N.of_nat r; S.K_left r; N.of_nat (20 * r + i)].
Definition right_call (r i : nat) : call fn :=
  Call lineRight (map (Nat.add 5) (regs_of 5 (i mod 5))) [N.of_nat (4 - r); S.K_right r; N.of_nat (20 * r + i)].
Definition round_calls (r : nat) : list (call fn) :=
  (Call extendTable [] [5; N.of_nat r] :: map (left_call r) (seq 0 20)) ++
  (Call extendTable [] [6; N.of_nat r] :: map (right_call r) (seq 0 20)) ++ [Call swapChainVars [] []].

Lemma calls_regular : calls = flat_map round_calls (seq 0 5).
Proof. vm_compute. reflexivity. Qed.

(** ** the tables *)

Section Table.
  Variable X : list N.
  Definition words16 : list (option N) := map (fun j => Some (nth j X 0)) (seq 0 16).
  Definition tab (r : nat) : list (option N) := words16 ++ map (fun q => Some (S.group X r q)) (seq 0 4).

  Lemma extend_ok r o : (r < 5)%nat -> length o = 4%nat -> M.extend r (words16 ++ o) = Ok (tab r).
  Proof.
    intros Hr Ho. destruct (list_len4 o Ho) as (o1 & o2 & o3 & o4 & ->). unfold tab, words16.
    destruct r as [|[|[|[|[|r]]]]]; [reflexivity..|lia].
  Qed.

  Definition look (x : list (option N)) (j : nat) : res N := let! n := aget mTable j in iget x (N.to_nat n).
  Lemma look_ok r i : (r < 5)%nat -> (i < 20)%nat -> look (tab r) (20 * r + i) = Ok (S.word X r i).
  Proof.
    intros Hr Hi. unfold tab, words16.
    destruct r as [|[|[|[|[|r]]]]]; [..|lia]; do 20 (destruct i as [|i]; [reflexivity|]); lia.
  Qed.
End Table.

(** ** steps *)

Definition mf (k : nat) : N -> N -> N -> N -> N :=
  match k with 0%nat => M.f0 | 1%nat => M.f1 | 2%nat => M.f2 | 3%nat => M.f3 | _ => M.f4 end.

Lemma mf_ok k x y z u : bnd 32 x -> bnd 32 y -> bnd 32 z -> bnd 32 u -> mf k x y z u = S.f k x y z u.
Proof.
  intros Hx Hy Hz Hu. unfold mf, S.f.
  destruct k as [|[|[|[|k]]]]; cbn [fold_right]; rewrite ?N.lxor_0_r;
  unfold M.f4, M.f3, M.f2, M.f1, M.f0; rewrite ?unot_spec by assumption; rewrite ?N.lxor_assoc; reflexivity.
Qed.

Lemma func_ok k : (k < 5)%nat -> M.func (N.of_nat k) = Ok (mf k).
Proof. intros H. destruct k as [|[|[|[|[|k]]]]]; try lia; reflexivity. Qed.

Lemma s1_ok r i : (i < 20)%nat -> aget sTable ((20 * r + i) mod 20) = Ok (S.s1 i) /\ S.s1 i <= 32.
Proof.
  intros Hi. rewrite Nat.add_comm, Nat.mul_comm, Nat.mod_add, Nat.mod_small by lia.
  do 20 (destruct i as [|i]; [split; [reflexivity|discriminate]|]). lia.
Qed.

Definition ok5 (v : S.vars) : Prop := Forall (bnd 32) (list5 v).

Lemma step_ok X r g k i v : (r < 5)%nat -> (i < 20)%nat -> ok5 v ->
  call_regs (M.line (tab X r) (mf g) k (20 * r + i)) (regs_of 5 (i mod 5)) (rotate (i mod 5) (list5 v))
  = Ok (rotate (S i mod 5) (list5 (S.step X r g k v i))) /\ ok5 (S.step X r g k v i).
Proof.
  intros Hr Hi Hv. destruct v as [[[[a b] c] d] e]. unfold ok5 in *. cbn [list5] in Hv. inv_Forall.
  destruct (s1_ok r i Hi) as [Es Hs]. unfold S.step. cbn [list5]. split.
  - rewrite <- rotate5. eapply call5.
    + unfold M.line. rewrite Es. cbn [bind]. pose proof (look_ok X r i Hr Hi) as El. unfold look in El.
      destruct (aget mTable (20 * r + i)) as [n| |]; [|discriminate..]. cbn [bind] in *. rewrite El. cbn [bind].
      rewrite mf_ok by assumption. reflexivity.
    + lia.
    + lia.
    + cbn [upd]. rewrite !rotl_spec by (first [assumption | discriminate]).
      repeat (apply f_equal2; [reflexivity|]). apply f_equal2; [sum_eq 32|reflexivity].
  - repeat constructor; auto; [apply bnd_sum|]. apply bnd_ROTL; first [assumption | discriminate].
Qed.

Lemma rotate_0 {A} (l : list A) : rotate 0 l = l.
Proof. unfold rotate. cbn [skipn firstn]. apply app_nil_r. Qed.

Lemma list5_length v : length (list5 v) = 5%nat.
Proof. destruct v as [[[[? ?] ?] ?] ?]. reflexivity. Qed.
Lemma regs5_bound k l : length l = 5%nat -> Forall (fun j => j < @length N l)%nat (regs_of 5 k).
Proof. intros ->. unfold regs_of. apply Forall_map, Forall_forall. intros j _. apply Nat.mod_upper_bound. lia. Qed.

Section Round.
  Variables (X Y : list N).

  Lemma left_ok r v m y : (r < 5)%nat -> ok5 v ->
    let w := fold_left (S.step X r r (S.K_left r)) (seq 0 20) v in
    foldM M.exec_call (map (left_call r) (seq 0 20)) (M.mkVars (list5 v ++ m) (tab X r) y)
    = Ok (M.mkVars (list5 w ++ m) (tab X r) y) /\ ok5 w.
  Proof.
    intros Hr Hv w. rewrite foldM_map, foldM_seq.
    destruct (for_inv (fun i s => let x := fold_left (S.step X r r (S.K_left r)) (seq 0 i) v in
        s = M.mkVars (rotate (i mod 5) (list5 x) ++ m) (tab X r) y /\ ok5 x)
      (fun i => M.exec_call (left_call r i)) 20 0 (M.mkVars (list5 v ++ m) (tab X r) y)) as (s & E & Es & Hs).
    - cbv zeta. cbn [seq fold_left]. change (0 mod 5)%nat with 0%nat. rewrite rotate_0. auto.
    - intros i s Hi. cbv zeta. intros [-> Hx]. rewrite fold_left_seq_S.
      set (x := fold_left _ (seq 0 i) v) in *. clearbody x. clear w.
      unfold M.exec_call, left_call. cbn [c_fn c_args c_regs M.v_regs M.v_x M.v_y].
      rewrite func_ok by lia. cbn [bind]. rewrite Nnat.Nat2N.id.
      rewrite call_regs_left by (apply regs5_bound; rewrite rotate_length; apply list5_length).
      destruct (step_ok X r r (S.K_left r) i x Hr ltac:(lia) Hx) as [-> Hk]. cbn [bind].
      eexists. split; [reflexivity|]. split; [reflexivity|exact Hk].
    - rewrite E. cbv zeta in *. cbn [Nat.add] in *. rewrite Es. change (20 mod 5)%nat with 0%nat. rewrite rotate_0.
      split; [reflexivity|exact Hs].
  Qed.

  Lemma right_ok r v l x : (r < 5)%nat -> ok5 v -> length l = 5%nat ->
    let w := fold_left (S.step Y r (4 - r) (S.K_right r)) (seq 0 20) v in
    foldM M.exec_call (map (right_call r) (seq 0 20)) (M.mkVars (l ++ list5 v) x (tab Y r))
    = Ok (M.mkVars (l ++ list5 w) x (tab Y r)) /\ ok5 w.
  Proof.
    intros Hr Hv Hl w. rewrite foldM_map, foldM_seq.
    destruct (for_inv (fun i s => let z := fold_left (S.step Y r (4 - r) (S.K_right r)) (seq 0 i) v in
        s = M.mkVars (l ++ rotate (i mod 5) (list5 z)) x (tab Y r) /\ ok5 z)
      (fun i => M.exec_call (right_call r i)) 20 0 (M.mkVars (l ++ list5 v) x (tab Y r))) as (s & E & Es & Hs).
    - cbv zeta. cbn [seq fold_left]. change (0 mod 5)%nat with 0%nat. rewrite rotate_0. auto.
    - intros i s Hi. cbv zeta. intros [-> Hx]. rewrite fold_left_seq_S.
      set (z := fold_left _ (seq 0 i) v) in *. clearbody z. clear w.
      unfold M.exec_call, right_call. cbn [c_fn c_args c_regs M.v_regs M.v_x M.v_y].
      rewrite func_ok by lia. cbn [bind]. rewrite Nnat.Nat2N.id.
      pose proof (call_regs_right (M.line (tab Y r) (mf (4 - r)) (S.K_right r) (20 * r + i)) (regs_of 5 (i mod 5))
        l (rotate (i mod 5) (list5 z))) as P. rewrite Hl in P. rewrite P
        by (apply regs5_bound; rewrite rotate_length; apply list5_length). clear P.
      destruct (step_ok Y r (4 - r) (S.K_right r) i z Hr ltac:(lia) Hx) as [-> Hk]. cbn [bind].
      eexists. split; [reflexivity|]. split; [reflexivity|exact Hk].
    - rewrite E. cbv zeta in *. cbn [Nat.add] in *. rewrite Es. change (20 mod 5)%nat with 0%nat. rewrite rotate_0.
      split; [reflexivity|exact Hs].
  Qed.

  Lemma round_ok r v o o' : (r < 5)%nat -> ok5 (fst v) -> ok5 (snd v) -> length o = 4%nat -> length o' = 4%nat ->
    let w := S.round X Y v r in
    foldM M.exec_call (round_calls r) (M.mkVars (list5 (fst v) ++ list5 (snd v)) (words16 X ++ o) (words16 Y ++ o'))
    = Ok (M.mkVars (list5 (fst w) ++ list5 (snd w)) (tab X r) (tab Y r)) /\ ok5 (fst w) /\ ok5 (snd w).
  Proof.
    intros Hr Hv Hv' Ho Ho' w.
    destruct (left_ok r (fst v) (list5 (snd v)) (words16 Y ++ o') Hr Hv) as [EL HL].
    destruct (right_ok r (snd v) (list5 (fst (snd w, fst w))) (tab X r) Hr Hv' (list5_length _)) as [ER HR].
    split; [|split; [exact HR|exact HL]].
    unfold round_calls. rewrite foldM_app. cbn [foldM].
    unfold M.exec_call at 1. cbn [c_fn c_args M.v_regs M.v_x M.v_y]. rewrite Nnat.Nat2N.id, extend_ok by assumption.
    cbn [bind]. rewrite EL. cbn [bind]. rewrite foldM_app. cbn [foldM].
    unfold M.exec_call at 1. cbn [c_fn c_args M.v_regs M.v_x M.v_y]. rewrite Nnat.Nat2N.id, extend_ok by assumption.
    cbn [bind]. cbn [fst] in ER. unfold w, S.round in ER |- *. cbn [fst snd] in ER |- *. rewrite ER. cbn [bind].
    unfold M.exec_call. cbn [c_fn c_args M.v_regs M.v_x M.v_y]. clear.
    generalize (fold_left (S.step X r r (S.K_left r)) (seq 0 20) (fst v)).
    generalize (fold_left (S.step Y r (4 - r) (S.K_right r)) (seq 0 20) (snd v)).
    intros [[[[? ?] ?] ?] ?] [[[[? ?] ?] ?] ?]. reflexivity.
  Qed.

  Lemma rounds_ok v : ok5 (fst v) -> ok5 (snd v) ->
    let w := fold_left (S.round X Y) (seq 0 5) v in
    exists x y, foldM M.exec_call calls
      (M.mkVars (list5 (fst v) ++ list5 (snd v)) (words16 X ++ repeat None 4) (words16 Y ++ repeat None 4))
    = Ok (M.mkVars (list5 (fst w) ++ list5 (snd w)) x y).
  Proof.
    intros Hv Hv' w. rewrite calls_regular, foldM_flat_map, foldM_seq.
    destruct (for_inv (fun r s => let z := fold_left (S.round X Y) (seq 0 r) v in
        exists o o', length o = 4%nat /\ length o' = 4%nat /\
        s = M.mkVars (list5 (fst z) ++ list5 (snd z)) (words16 X ++ o) (words16 Y ++ o') /\ ok5 (fst z) /\ ok5 (snd z))
      (fun r => foldM M.exec_call (round_calls r)) 5 0
      (M.mkVars (list5 (fst v) ++ list5 (snd v)) (words16 X ++ repeat None 4) (words16 Y ++ repeat None 4)))
      as (s & E & o & o' & _ & _ & -> & _).
    - cbv zeta. cbn [seq fold_left]. do 2 eexists. split; [|split; [|split; [reflexivity|auto]]]; reflexivity.
    - intros r s Hr. cbv zeta. intros (o & o' & Ho & Ho' & -> & Hz & Hz'). rewrite fold_left_seq_S.
      set (z := fold_left _ (seq 0 r) v) in *. clearbody z. clear w.
      destruct (round_ok r z o o' ltac:(lia) Hz Hz' Ho Ho') as (-> & H1 & H2).
      eexists. split; [reflexivity|]. do 2 eexists. split; [|split; [|split; [reflexivity|auto]]]; reflexivity.
    - rewrite E. do 2 eexists. reflexivity.
  Qed.
End Round.

(** ** the block *)

Lemma list_len10 {A} (l : list A) : length l = 10%nat ->
  exists a b c d e f g h i j, l = [a; b; c; d; e; f; g; h; i; j].
Proof. do 11 (destruct l as [|? l]; [discriminate || (intros; repeat eexists)|]). discriminate. Qed.

Lemma compress_ok blk tl h : words_ok 10 h -> length blk = 128%nat -> bytes_ok blk ->
  M.compress (blk ++ tl) h = Ok (S.compress h blk) /\ words_ok 10 (S.compress h blk).
Proof.
  intros [Hl Hh] Hlen Hok. destruct (list_len10 h Hl) as (h0 & h1 & h2 & h3 & h4 & h5 & h6 & h7 & h8 & h9 & ->).
  assert (forall from, (from <= 16)%nat ->
    M.fill_table (blk ++ tl) from = Ok (words16 (skipn from (le_words 4 blk)) ++ repeat None 4)) as Hfill.
  { intros from Hf. unfold M.fill_table.
    rewrite (for_ext _ (fun j x => aset x j (Some (nth j (skipn from (le_words 4 blk)) 0)))).
    - reflexivity.
    - intros j x Hj. rewrite (load_le_ok 4 32) by (auto; lia). cbn [bind]. do 2 f_equal.
      clear -Hf. revert from Hf. generalize (le_words 4 blk). intros l from _. revert l.
      induction from as [|from IH]; intros l; [reflexivity|]. destruct l as [|a l]; [now destruct j|]. apply IH. }
  assert (words16 (firstn 16 (le_words 4 blk)) = words16 (le_words 4 blk)) as E16.
  { unfold words16. apply map_ext_in. intros j Hj. apply in_seq in Hj. f_equal.
    clear -Hj. generalize (le_words 4 blk). generalize dependent j. intros j Hj l.
    assert (j < 16)%nat as H by lia. clear Hj. revert l j H. generalize 16%nat. intros n.
    induction n as [|n IH]; intros l j H; [lia|]. destruct l as [|a l]; [reflexivity|]. destruct j as [|j]; [reflexivity|].
    cbn [firstn nth]. apply IH. lia. }
  unfold M.compress. rewrite (Hfill 0%nat), (Hfill 16%nat) by lia. cbn [bind mapM aget nth_error seq].
  change (skipn 0 (le_words 4 blk)) with (le_words 4 blk). rewrite <- E16.
  destruct (rounds_ok (firstn 16 (le_words 4 blk)) (skipn 16 (le_words 4 blk))
    ((h0, h1, h2, h3, h4), (h5, h6, h7, h8, h9))) as (x & y & E).
  { unfold ok5. cbn [fst list5]. inv_Forall. repeat constructor; assumption. }
  { unfold ok5. cbn [snd list5]. inv_Forall. repeat constructor; assumption. }
  cbn [list5 fst snd app] in E. rewrite E. clear E. cbn [bind M.v_regs]. unfold S.compress.
  set (W := fold_left _ (seq 0 5) _). clearbody W. destruct W as [w w'].
  destruct w as [[[[a b] c] d] e], w' as [[[[a' b'] c'] d'] e'].
  cbn [fst snd list5 S.listed combine app map].
  split.
  - cbn -[uadd add]. rewrite !uadd_spec. reflexivity.
  - split; [reflexivity|]. repeat constructor; apply bnd_wadd.
Qed.

(** ** the object *)

Definition hash_state (m : list N) : list N :=
  chain 128 S.compress S.iv (pad 128 9 128 (fun bits => 40 :: le_bytes 8 bits) m).

Lemma iv_ok : words_ok 10 M.iv.
Proof. split; [reflexivity|]. apply Forall_bndb. reflexivity. Qed.

Definition run (d : list N) (s : MD (list N)) : MD (list N) :=
  mkMD (uadd 64 (md_cnt s) (N.of_nat (length d))) (chain 128 S.compress (md_h s) d).
Definition s0 : MD (list N) := mkMD 0 M.iv.
Definition absorb (m : list N) : M.Obj := (rest 128 m, run (pre 128 m) s0).

Lemma blocks_ok d : aligned 128 d -> bytes_ok d -> forall h, words_ok 10 h ->
  block_loop (list N) 128 M.compress d h = Ok (chain 128 S.compress h d) /\ words_ok 10 (chain 128 S.compress h d).
Proof.
  apply (block_loop_ok 128 M.compress S.compress (words_ok 10)); [lia|]. intros. apply compress_ok; assumption.
Qed.
Lemma impl_ok dbg d s : words_ok 10 (md_h s) -> bytes_ok d -> aligned 128 d -> M.impl dbg d s = Ok (run d s).
Proof.
  intros Hs Hd Ha. unfold M.impl, md_impl. rewrite assert_ok by exact Ha. cbn [bind].
  destruct (blocks_ok d Ha Hd (md_h s) Hs) as [-> _]. reflexivity.
Qed.
Lemma run_inv d s : words_ok 10 (md_h s) -> bytes_ok d -> aligned 128 d -> words_ok 10 (md_h (run d s)).
Proof. intros Hs Hd Ha. apply (blocks_ok d Ha Hd (md_h s) Hs). Qed.
Lemma run_app x y s : aligned 128 x -> run (x ++ y) s = run y (run x s).
Proof.
  intros Ha. unfold run, chain. cbn [md_cnt md_h]. rewrite pieces_app, fold_left_app by (auto; lia). f_equal.
  rewrite !uadd_mod, app_length, Nnat.Nat2N.inj_add, N.add_mod_idemp_l by apply pow2_nz. f_equal. lia.
Qed.

Lemma tail_ok dbg x d : bytes_ok x -> aligned 128 x -> bytes_ok d ->
  M.addData_tail dbg d [] (run x s0) = Ok (absorb (x ++ d)).
Proof.
  intros Hxb Hx Hd. unfold M.addData_tail. destruct (Nat.ltb_spec (length d) 128) as [Hlt|Hge].
  - unfold absorb. destruct (split_unique 128 x d ltac:(lia) Hx Hlt) as [-> ->]. reflexivity.
  - assert (length d - length d mod 128 = whole 128 d)%nat as ->
      by (unfold whole; pose proof (Nat.div_mod (length d) 128 ltac:(lia)); lia).
    pose proof (whole_le 128 d ltac:(lia)) as Hw.
    unfold span_first. destruct (Nat.leb_spec (whole 128 d) (length d)); [|lia]. cbn [bind].
    change (firstn (whole 128 d) d) with (pre 128 d). change (skipn (whole 128 d) d) with (rest 128 d).
    rewrite impl_ok; [|apply run_inv; [apply iv_ok|assumption..]|apply bytes_ok_pre, Hd|apply pre_aligned; lia].
    cbn [bind].
    assert (absorb (x ++ d) = (rest 128 d, run (pre 128 d) (run x s0))) as Eab.
    { unfold absorb. rewrite <- (pre_rest 128 d) at 1 2. rewrite app_assoc.
      destruct (split_unique 128 (x ++ pre 128 d) (rest 128 d)) as [-> ->];
        [lia|apply aligned_app; auto using pre_aligned; [lia|apply pre_aligned; lia]|apply rest_lt; lia|].
      now rewrite run_app. }
    rewrite Eab. destruct (Nat.ltb_spec (whole 128 d) (length d)); [reflexivity|].
    assert (rest 128 d = []) as -> by (unfold rest; apply skipn_all2; lia). reflexivity.
Qed.

Lemma addData_ok dbg m d : bytes_ok m -> bytes_ok d -> M.addData dbg d (absorb m) = Ok (absorb (m ++ d)).
Proof.
  intros Hm Hd. unfold M.addData, absorb at 1. pose proof (rest_lt 128 m ltac:(lia)) as Hrl.
  assert (aligned 128 (pre 128 m)) as Hpa by (apply pre_aligned; lia).
  destruct (rest 128 m) as [|r0 rr] eqn:Er.
  - rewrite tail_ok by auto using bytes_ok_pre. do 2 f_equal.
    rewrite <- (pre_rest 128 m) at 2. now rewrite Er, app_nil_r.
  - rewrite <- Er in *. clear r0 rr Er. set (r := rest 128 m) in *.
    destruct (Nat.leb_spec (length r) 128); [|lia].
    set (len := min (128 - length r) (length d)).
    assert (length (firstn len d) = len) as Hfl by (apply firstn_length_le; unfold len; lia).
    rewrite app_length, Hfl. destruct (Nat.ltb_spec (length r + len) 128) as [Hsmall|Hbig].
    + f_equal. unfold absorb. assert (len = length d) as El by (unfold len in *; lia). rewrite El, firstn_all.
      rewrite <- (pre_rest 128 m) at 2 3. fold r. rewrite <- app_assoc.
      destruct (split_unique 128 (pre 128 m) (r ++ d)) as [-> ->];
        [lia|exact Hpa|rewrite app_length; lia|]. reflexivity.
    + assert (length (r ++ firstn len d) = 128%nat) as Hfull by (rewrite app_length, Hfl; unfold len in *; lia).
      assert (bytes_ok (r ++ firstn len d)) as Hfb
        by (apply bytes_ok_app; split; [apply bytes_ok_rest, Hm|apply bytes_ok_firstn, Hd]).
      assert (aligned 128 (r ++ firstn len d)) as Hfa by (unfold aligned; now rewrite Hfull).
      rewrite impl_ok; [|apply run_inv; [apply iv_ok|apply bytes_ok_pre, Hm|exact Hpa]|exact Hfb|exact Hfa].
      cbn [bind]. unfold span_subspan. destruct (Nat.leb_spec len (length d)); [|unfold len in *; lia]. cbn [bind].
      rewrite <- run_app by exact Hpa. rewrite tail_ok.
      * do 2 f_equal. rewrite <- !app_assoc, firstn_skipn. unfold r. now rewrite app_assoc, pre_rest.
      * apply bytes_ok_app. auto using bytes_ok_pre.
      * apply aligned_app; [lia|assumption..].
      * apply bytes_ok_skipn, Hd.
Qed.

Lemma set_end_ok x y k i v : (k <= length y)%nat -> (i < k)%nat ->
  M.set_from_end k i v (x ++ y) = Ok (x ++ upd y (length y - k + i) v).
Proof.
  intros Hk Hi. unfold M.set_from_end. rewrite app_length.
  destruct (Nat.ltb_spec (length x + length y + i) k); [lia|].
  replace (length x + length y + i - k)%nat with (length x + (length y - k + i))%nat by lia.
  rewrite aset_app_r by lia. reflexivity.
Qed.

Definition enc (bits : N) : list N := 40 :: le_bytes 8 bits.
Definition done (m : list N) : M.Obj :=
  ([], mkMD (uadd 64 (uadd 64 0 (N.of_nat (length m)))
        (N.of_nat (length (rest 128 m ++ [128] ++ repeat 0 (zeros 128 9 (length m)) ++ enc 0)))) (hash_state m)).

Lemma finalize_ok dbg m : bytes_ok m -> M.finalize dbg (absorb m) = Ok (done m).
Proof.
  intros Hm. unfold M.finalize, absorb.
  pose proof (rest_lt 128 m ltac:(lia)) as Hr. pose proof (zeros_rest 128 9 m ltac:(lia) ltac:(lia)) as Hz.
  rewrite app_length. cbn [length]. rewrite pad_len_spec; [|lia|lia|reflexivity]. rewrite Nat.add_1_r, <- Hz.
  rewrite repeat_app, app_assoc. change (repeat 0 9) with [0; 0; 0; 0; 0; 0; 0; 0; 0].
  set (base := (rest 128 m ++ [128]) ++ repeat 0 (zeros 128 9 (length m))).
  rewrite set_end_ok by (cbn [length]; lia). cbn [bind length upd Nat.sub Nat.add for_].
  repeat (rewrite set_end_ok by (cbn [length]; lia); cbn [bind length upd Nat.sub Nat.add]).
  assert (md_cnt (run (pre 128 m) s0) = uadd 64 0 (N.of_nat (length (pre 128 m)))) as -> by reflexivity.
  assert (uadd 64 (uadd 64 0 (N.of_nat (length (pre 128 m)))) (N.of_nat (length (rest 128 m)))
          = uadd 64 0 (N.of_nat (length m))) as Ecnt.
  { rewrite !uadd_mod, N.add_mod_idemp_l by apply pow2_nz. f_equal.
    rewrite <- (pre_rest 128 m) at 3. rewrite app_length. lia. }
  rewrite Ecnt. rewrite !ror_ror by (cbn; discriminate).
  set (bits := umul 64 (uadd 64 0 (N.of_nat (length m))) 8).
  match goal with |- (let! s := M.impl dbg (base ++ ?t) _ in _) = _ => assert (t = enc (8 * N.of_nat (length m))) as -> end.
  { unfold enc. rewrite <- (le_bytes_mod 8 (8 * N.of_nat (length m))).
    assert ((8 * N.of_nat (length m)) mod 256 ^ N.of_nat 8 = bits) as ->.
    { unfold bits. rewrite umul_spec, uadd_mod. unfold mul. rewrite N.add_0_l.
      rewrite N.mul_mod_idemp_l by apply pow2_nz. rewrite N.mul_comm. reflexivity. }
    clearbody bits. rewrite le_bytes_seq. cbn [seq map]. reflexivity. }
  assert (forall t, base ++ t = rest 128 m ++ [128] ++ repeat 0 (zeros 128 9 (length m)) ++ t) as Eb
    by (intros; unfold base; now rewrite <- !app_assoc).
  rewrite Eb. clear Eb base.
  assert (forall x, length (enc x) = 9%nat) as Hel by (intros; cbn [enc length]; now rewrite le_bytes_length).
  assert (forall x, bytes_ok (enc x)) as Heb by (intros; constructor; [reflexivity|apply le_bytes_ok]).
  pose proof (pad_aligned 128 9 128 enc m ltac:(lia) Hel) as Hp.
  pose proof (pad_bytes 128 9 128 enc m Hm ltac:(reflexivity) Heb) as Hpb.
  rewrite pad_tail in Hp, Hpb. apply bytes_ok_app in Hpb. destruct Hpb as [_ Hpb].
  assert (aligned 128 (pre 128 m)) as Hpa by (apply pre_aligned; lia).
  rewrite impl_ok.
  - cbn [bind]. unfold done.
    assert (hash_state m = chain 128 S.compress (md_h (run (pre 128 m) s0))
      (rest 128 m ++ [128] ++ repeat 0 (zeros 128 9 (length m)) ++ enc (8 * N.of_nat (length m)))) as ->.
    { unfold hash_state. fold enc. rewrite pad_tail. unfold run, chain. cbn [md_h].
      rewrite (pieces_app 128 (pre 128 m)) by (auto; lia). now rewrite fold_left_app. }
    unfold run. cbn [md_cnt md_h]. rewrite !app_length, !Hel. reflexivity.
  - cbn [md_h]. apply run_inv; [apply iv_ok|apply bytes_ok_pre, Hm|exact Hpa].
  - exact Hpb.
  - unfold aligned in *. rewrite app_length, <- Nat.add_mod_idemp_l, Hpa in Hp by lia. exact Hp.
Qed.

Lemma state_ok m : bytes_ok m -> words_ok 10 (hash_state m).
Proof.
  intros Hm. apply blocks_ok.
  - apply pad_aligned; [lia|]. intros. cbn [length]. now rewrite le_bytes_length.
  - apply pad_bytes; [exact Hm|reflexivity|]. intros. constructor; [reflexivity|apply le_bytes_ok].
  - apply iv_ok.
Qed.

Lemma array_ok m : bytes_ok m -> M.toArray (done m) = Ok (S.has_v m) /\ bytes_ok (S.has_v m).
Proof.
  intros Hm. destruct (state_ok m Hm) as [Hl _]. unfold M.toArray, done. cbn [snd md_h].
  rewrite (flat_map_ext _ (le_bytes 4)) by apply word_bytes_le_ok. split.
  - apply store_array_eq. unfold S.has_v. fold (hash_state m). rewrite (flat_length _ 4), Hl by apply le_bytes_length. reflexivity.
  - apply bytes_ok_flat_map, le_bytes_ok.
Qed.

Theorem implements dbg : Implements (M.cls dbg) S.has_v (fun _ => True) absorb done.
Proof.
  constructor.
  - reflexivity.
  - intros m d Hm [Hd _]. apply addData_ok; assumption.
  - intros m Hm _. apply finalize_ok, Hm.
  - intros m Hm _. apply array_ok, Hm.
  - reflexivity.
  - reflexivity.
  - intros m Hm _. apply array_ok, Hm.
Qed.

Theorem hasv_correct dbg : Correct (M.cls dbg) S.has_v (fun _ => True).
Proof. do 2 eexists. apply implements. Qed.

(** ** toString *)

Lemma digit_ok d : d < 16 -> (if d <? 10 then 48 + d else 87 + d) = hex_char d.
Proof.
  intros H. assert (In d (map N.of_nat (seq 0 16))) as Hin.
  { apply in_map_iff. exists (N.to_nat d). split; [apply Nnat.N2Nat.id|]. apply in_seq. lia. }
  clear H. revert d Hin. apply Forall_forall. repeat constructor.
Qed.

Lemma percent_ok l : bytes_ok l -> flat_map M.percent_02x l = hex_text l.
Proof.
  intros H. induction H as [|b l Hb _ IH]; [reflexivity|]. unfold hex_text in *. cbn [flat_map]. rewrite IH. f_equal.
  unfold M.percent_02x. cbn [map]. unfold byte_ok in Hb.
  rewrite !digit_ok; [reflexivity|apply N.mod_lt; discriminate|apply N.div_lt_upper_bound; [discriminate|exact Hb]].
Qed.

Theorem text_ok dbg chunks : Forall span_ok chunks ->
  (let! x := foldM (M.addData dbg) chunks M.fresh in
   let! x := M.finalize dbg x in
   M.toString x) = Ok (hex_text (S.has_v (concat chunks))).
Proof.
  intros H. pose proof (bytes_ok_concat chunks H) as Hb.
  assert (foldM (M.addData dbg) chunks (absorb []) = Ok (absorb (concat chunks))) as E
    by exact (foldM_absorb (implements dbg) chunks H [] (Forall_nil _)).
  change M.fresh with (absorb []). rewrite E. cbn [bind].
  rewrite finalize_ok by exact Hb. cbn [bind]. unfold M.toString.
  destruct (array_ok (concat chunks) Hb) as [-> Hk]. cbn [bind]. now rewrite percent_ok.
Qed.
