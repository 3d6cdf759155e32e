(** The RIPEMD headers compute the RIPEMD functions. *)
From Coq Require Import List NArith Arith Bool Lia.
From Verif.Base Require Import Res CWord.
From Verif.Spec Require Import Words Client Merkle.
From Verif.Spec Require Ripemd.
From Verif.Model Require Import Buffer Stream Api Call.
From Verif.Model.Gen Require Ripemd128Calls Ripemd160Calls Ripemd256Calls Ripemd320Calls.
From Verif.Model Require Ripemd.
From Verif.Proof Require Import Words Streaming Blocks Api MD Rounds Regs Class.
Import ListNotations.
Module S := Verif.Spec.Ripemd.
Module M := Verif.Model.Ripemd.
Local Open Scope N_scope.

(** ** two interleaved lines, two steps of each in turn *)

Section Lines.
  Variables (n R : nat) (V C : Type) (lst : V -> list N) (ok : V -> Prop).
  Variables (exec : C -> list N -> res (list N)) (cL cR : nat -> C) (tailc : nat -> list C).
  Variables (stL stR : V -> nat -> V) (exch : nat -> V * V -> V * V).
  Hypothesis Hlst : forall v, length (lst v) = n.
  Hypothesis HL : forall t v m, (t < 16 * R)%nat -> ok v ->
    exec (cL t) (rotate (t mod n) (lst v) ++ m) = Ok (rotate (S t mod n) (lst (stL v t)) ++ m) /\ ok (stL v t).
  Hypothesis HR : forall t v l, (t < 16 * R)%nat -> ok v -> length l = n ->
    exec (cR t) (l ++ rotate (t mod n) (lst v)) = Ok (l ++ rotate (S t mod n) (lst (stR v t))) /\ ok (stR v t).

  Definition both (t : nat) (v v' : V) : list N := rotate (t mod n) (lst v) ++ rotate (t mod n) (lst v').
  Hypothesis HX : forall k v, (k < R)%nat -> ok (fst v) -> ok (snd v) ->
    foldM exec (tailc k) (both (16 * S k) (fst v) (snd v))
    = Ok (both (16 * S k) (fst (exch k v)) (snd (exch k v))) /\ ok (fst (exch k v)) /\ ok (snd (exch k v)).

  Definition quad (j : nat) : list C := [cL (2 * j); cL (S (2 * j)); cR (2 * j); cR (S (2 * j))].
  Definition round_calls (k : nat) : list C := flat_map quad (seq (8 * k) 8) ++ tailc k.

  Lemma quad_ok j v v' : (j < 8 * R)%nat -> ok v -> ok v' ->
    foldM exec (quad j) (both (2 * j) v v')
    = Ok (both (2 * S j) (stL (stL v (2 * j)) (S (2 * j))) (stR (stR v' (2 * j)) (S (2 * j))))
    /\ ok (stL (stL v (2 * j)) (S (2 * j))) /\ ok (stR (stR v' (2 * j)) (S (2 * j))).
  Proof.
    intros Hj Hv Hv'. unfold quad, both. cbn [foldM].
    destruct (HL (2 * j) v (rotate ((2 * j) mod n) (lst v'))) as [E1 H1]; [lia|exact Hv|].
    rewrite E1. cbn [bind].
    destruct (HL (S (2 * j)) (stL v (2 * j)) (rotate ((2 * j) mod n) (lst v'))) as [E2 H2]; [lia|exact H1|].
    rewrite E2. cbn [bind].
    match goal with |- context [exec (cR (2 * j)) (?l ++ _)] =>
      destruct (HR (2 * j) v' l) as [E3 H3]; [lia|exact Hv'|rewrite rotate_length; apply Hlst|] end.
    rewrite E3. cbn [bind].
    match goal with |- context [exec (cR (S (2 * j))) (?l ++ _)] =>
      destruct (HR (S (2 * j)) (stR v' (2 * j)) l) as [E4 H4]; [lia|exact H3|rewrite rotate_length; apply Hlst|] end.
    rewrite E4. cbn [bind]. replace (2 * S j)%nat with (S (S (2 * j))) by lia. auto.
  Qed.

  Lemma fold_two (st : V -> nat -> V) a k v : fold_left st (seq a (2 * S k)) v
    = st (st (fold_left st (seq a (2 * k)) v) (a + 2 * k)%nat) (S (a + 2 * k)%nat).
  Proof.
    replace (2 * S k)%nat with (2 * k + 2)%nat by lia. rewrite seq_app, fold_left_app. reflexivity.
  Qed.

  Lemma round_ok k v : (k < R)%nat -> ok (fst v) -> ok (snd v) ->
    let w := exch k (fold_left stL (seq (16 * k) 16) (fst v), fold_left stR (seq (16 * k) 16) (snd v)) in
    foldM exec (round_calls k) (both (16 * k) (fst v) (snd v)) = Ok (both (16 * S k) (fst w) (snd w))
    /\ ok (fst w) /\ ok (snd w).
  Proof.
    intros Hk Hv Hv' w. unfold round_calls. rewrite foldM_app, foldM_flat_map, foldM_seq.
    destruct (for_inv (fun j r =>
        let i := (2 * (j - 8 * k))%nat in
        let x := fold_left stL (seq (16 * k) i) (fst v) in
        let y := fold_left stR (seq (16 * k) i) (snd v) in
        r = both (2 * j) x y /\ ok x /\ ok y)
      (fun j => foldM exec (quad j)) 8 (8 * k) (both (16 * k) (fst v) (snd v))) as (r & E & Hr & Hx & Hy).
    - cbv zeta. rewrite Nat.sub_diag. cbn [Nat.mul seq fold_left]. split; [|auto]. f_equal; lia.
    - intros j r Hj. cbv zeta. intros (-> & Hx & Hy).
      replace (S j - 8 * k)%nat with (S (j - 8 * k)) by lia. rewrite !fold_two.
      replace (16 * k + 2 * (j - 8 * k))%nat with (2 * j)%nat by lia.
      destruct (quad_ok j _ _ ltac:(lia) Hx Hy) as (E & H1 & H2). eexists. split; [exact E|]. auto.
    - rewrite E. cbn [bind]. cbv zeta in *.
      replace (2 * (8 * k + 8 - 8 * k))%nat with 16%nat in * by lia.
      rewrite Hr. replace (2 * (8 * k + 8))%nat with (16 * S k)%nat by lia.
      apply (HX k (_, _)); assumption.
  Qed.

  Theorem lines_ok v : ok (fst v) -> ok (snd v) ->
    let w := S.lines stL stR exch R v in
    foldM exec (flat_map round_calls (seq 0 R)) (lst (fst v) ++ lst (snd v)) = Ok (both (16 * R) (fst w) (snd w))
    /\ ok (fst w) /\ ok (snd w).
  Proof.
    intros Hv Hv' w. rewrite foldM_flat_map, foldM_seq.
    destruct (for_inv (fun k r => let x := S.lines stL stR exch k v in
        r = both (16 * k) (fst x) (snd x) /\ ok (fst x) /\ ok (snd x))
      (fun k => foldM exec (round_calls k)) R 0 (lst (fst v) ++ lst (snd v))) as (r & E & Hr & Hx).
    - cbv zeta. unfold S.lines. cbn [seq fold_left]. split; [|auto]. unfold both.
      replace (16 * 0)%nat with 0%nat by lia. 
      assert (forall l : list N, rotate (0 mod n) l = l) as Hr.
      { intros l. destruct n as [|n']; [|rewrite Nat.mod_0_l by lia]; unfold rotate; cbn [Nat.modulo skipn firstn]; apply app_nil_r. }
      now rewrite !Hr.
    - intros k r Hk. cbv zeta. intros (-> & Hx & Hy).
      destruct (round_ok k (S.lines stL stR exch k v) ltac:(lia) Hx Hy) as (E & H1 & H2).
      assert (S.lines stL stR exch (S k) v
        = exch k (fold_left stL (seq (16 * k) 16) (fst (S.lines stL stR exch k v)),
                  fold_left stR (seq (16 * k) 16) (snd (S.lines stL stR exch k v)))) as El.
      { unfold S.lines. now rewrite fold_left_seq_S. }
      rewrite El. eexists. split; [exact E|]. auto.
    - rewrite E. cbv zeta in *. cbn [Nat.add] in *. rewrite Hr. split; [reflexivity|exact Hx].
  Qed.
End Lines.

(** ** functions, words, shifts *)

Definition mf (j : nat) : N -> N -> N -> N :=
  match j with 1%nat => M.f1 | 2%nat => M.f2 | 3%nat => M.f3 | 4%nat => M.f4 | _ => M.f5 end.

Lemma mf_ok j x y z : bnd 32 x -> bnd 32 y -> bnd 32 z -> mf j x y z = S.f j x y z.
Proof.
  intros Hx Hy Hz. unfold mf, S.f. destruct j as [|[|[|[|[|j]]]]].
  - unfold M.f5. now rewrite unot_spec by assumption.
  - reflexivity.
  - apply ch_alt_or; assumption.
  - unfold M.f3. now rewrite unot_spec by assumption.
  - unfold M.f4. rewrite (N.land_comm y), land_compl by assumption. bitwise.
  - unfold M.f5. now rewrite unot_spec by assumption.
Qed.

Lemma func_ok j : (1 <= j <= 5)%nat -> M.func (N.of_nat (j - 1)) = Ok (mf j).
Proof. intros H. destruct j as [|[|[|[|[|[|j]]]]]]; try lia; reflexivity. Qed.

Lemma upto80 (P : nat -> bool) : forallb P (seq 0 80) = true -> forall t, (t < 80)%nat -> P t = true.
Proof. intros E t H. rewrite forallb_forall in E. apply E, in_seq. lia. Qed.

Lemma word_left_bound t : (t < 80)%nat -> (S.word_left t < 16)%nat.
Proof. intros H. apply Nat.ltb_lt. revert t H. apply upto80. vm_compute. reflexivity. Qed.
Lemma word_right_bound t : (t < 80)%nat -> (S.word_right t < 16)%nat.
Proof. intros H. apply Nat.ltb_lt. revert t H. apply upto80. vm_compute. reflexivity. Qed.
Lemma shift_left_bound t : (t < 80)%nat -> S.shift t (S.word_left t) <= 32.
Proof. intros H. apply N.leb_le. revert t H. apply upto80. vm_compute. reflexivity. Qed.
Lemma shift_right_bound t : (t < 80)%nat -> S.shift t (S.word_right t) <= 32.
Proof. intros H. apply N.leb_le. revert t H. apply upto80. vm_compute. reflexivity. Qed.

Section Block.
  Variables (blk tl : list N).
  Hypothesis Hlen : length blk = 64%nat.
  Hypothesis Hok : bytes_ok blk.
  Let X := le_words 4 blk.

  Definition ok4 (v : S.vars4) : Prop := Forall (bnd 32) (list4 v).
  Definition ok5 (v : S.vars5) : Prop := Forall (bnd 32) (list5 v).

  Lemma load_X w : (w < 16)%nat -> load_le 4 (blk ++ tl) w = Ok (nth w X 0).
  Proof. intros. apply (load_le_ok 4 16); auto; lia. Qed.

  (** one step of a line of four *)
  Lemma line4_ok t j k w s v : (w < 16)%nat -> s <= 32 -> ok4 v ->
    call_regs (M.line4 (blk ++ tl) (mf j) k w s) (regs_of 4 (t mod 4)) (rotate (t mod 4) (list4 v))
    = Ok (rotate (S t mod 4) (list4 (S.op4 v (S.f j) (nth w X 0) k s))) /\ ok4 (S.op4 v (S.f j) (nth w X 0) k s).
  Proof.
    intros Hw Hs Hv. destruct v as [[[a b] c] d]. unfold ok4 in *. cbn [list4] in Hv. inv_Forall.
    unfold S.op4. cbn [list4]. split.
    - apply call4. unfold M.line4. rewrite load_X by exact Hw. cbn [bind]. rewrite mf_ok by assumption.
      do 3 f_equal. rewrite rotl_spec by (auto with wb). f_equal. sum_eq 32.
    - repeat constructor; auto. rewrite <- rotl_spec by (auto with wb). auto with wb.
  Qed.

  Lemma line5_ok t j k w s v : (w < 16)%nat -> s <= 32 -> ok5 v ->
    call_regs (M.line5 (blk ++ tl) (mf j) k w s) (regs_of 5 (t mod 5)) (rotate (t mod 5) (list5 v))
    = Ok (rotate (S t mod 5) (list5 (S.op5 v (S.f j) (nth w X 0) k s))) /\ ok5 (S.op5 v (S.f j) (nth w X 0) k s).
  Proof.
    intros Hw Hs Hv. destruct v as [[[[a b] c] d] e]. unfold ok5 in *. cbn [list5] in Hv. inv_Forall.
    unfold S.op5. cbn [list5]. split.
    - rewrite <- rotate5. eapply call5.
      + unfold M.line5. rewrite load_X by exact Hw. cbn [bind]. rewrite mf_ok by assumption. reflexivity.
      + lia.
      + lia.
      + cbn [upd]. rewrite uadd_spec, !rotl_spec by (auto with wb; discriminate). do 4 f_equal. sum_eq 32.
    - repeat constructor; auto; [apply bnd_wadd|]. rewrite <- rotl_spec by (auto with wb; discriminate). auto with wb.
  Qed.

  (** left and right calls *)
  Section Calls.
    Variable fn : Type.
    Variables (lineLeft lineRight : fn) (exec : call fn -> list N -> res (list N)).
    Variables (n : nat) (ln : (N -> N -> N -> N) -> N -> nat -> N -> list N -> res (list (nat * N))).
    Hypothesis HeL : forall regs args r, exec (Call lineLeft regs args) r = M.line ln args regs r.
    Hypothesis HeR : forall regs args r, exec (Call lineRight regs args) r = M.line ln args regs r.

    Definition callL (t : nat) : call fn :=
      Call lineLeft (regs_of n (t mod n))
        [N.of_nat (t / 16); S.K_left t; N.of_nat (S.word_left t); S.shift t (S.word_left t)].
    Definition callR (K : nat -> N) (t : nat) : call fn :=
      Call lineRight (map (Nat.add n) (regs_of n (t mod n)))
        [N.of_nat (n - t / 16 - 1); K t; N.of_nat (S.word_right t); S.shift t (S.word_right t)].

    Lemma regs_bound (k : nat) l : (0 < n)%nat -> length l = n -> Forall (fun j => j < @length N l)%nat (regs_of n k).
    Proof.
      clear. intros H0 E. rewrite E. unfold regs_of. apply Forall_map, Forall_forall. intros j _. apply Nat.mod_upper_bound. lia.
    Qed.

    Lemma callL_ok t l m : (0 < n)%nat -> (n <= 5)%nat -> (t < 16 * n)%nat -> length l = n ->
      exec (callL t) (l ++ m)
      = let! l := call_regs (ln (mf (1 + t / 16)) (S.K_left t) (S.word_left t) (S.shift t (S.word_left t)))
                    (regs_of n (t mod n)) l in Ok (l ++ m).
    Proof.
      clear HeR. intros H0 H5 Ht Hl. unfold callL. rewrite HeL. cbn [M.line].
      assert (t / 16 < 5)%nat by (apply Nat.div_lt_upper_bound; lia).
      pose proof (func_ok (1 + t / 16) ltac:(lia)) as E. replace (1 + t / 16 - 1)%nat with (t / 16)%nat in E by lia.
      rewrite E. cbn [bind]. rewrite Nnat.Nat2N.id. apply call_regs_left. apply regs_bound; assumption.
    Qed.

    Lemma callR_ok K t l m : (0 < n)%nat -> (n <= 5)%nat -> (t < 16 * n)%nat -> length l = n -> length m = n ->
      exec (callR K t) (l ++ m)
      = let! m := call_regs (ln (mf (n - t / 16)) (K t) (S.word_right t) (S.shift t (S.word_right t)))
                    (regs_of n (t mod n)) m in Ok (l ++ m).
    Proof.
      clear HeL. intros H0 H5 Ht Hl Hm. unfold callR. rewrite HeR. cbn [M.line].
      assert (t / 16 < n)%nat by (apply Nat.div_lt_upper_bound; lia).
      pose proof (func_ok (n - t / 16) ltac:(lia)) as E. rewrite E. cbn [bind]. rewrite Nnat.Nat2N.id.
      match goal with |- call_regs ?f (map _ ?regs) _ = _ => pose proof (call_regs_right f regs l m) as P end.
      rewrite Hl in P. apply P. apply regs_bound; assumption.
    Qed.
  End Calls.

  Lemma list4_length v : length (list4 v) = 4%nat.
  Proof. destruct v as [[[? ?] ?] ?]. reflexivity. Qed.
  Lemma list5_length v : length (list5 v) = 5%nat.
  Proof. destruct v as [[[[? ?] ?] ?] ?]. reflexivity. Qed.

  Section Four.
    Variable fn : Type.
    Variables (lineLeft lineRight : fn) (exec : call fn -> list N -> res (list N)).
    Hypothesis HeL : forall regs args r, exec (Call lineLeft regs args) r = M.line (M.line4 (blk ++ tl)) args regs r.
    Hypothesis HeR : forall regs args r, exec (Call lineRight regs args) r = M.line (M.line4 (blk ++ tl)) args regs r.
    Lemma left4_ok t v m : (t < 16 * 4)%nat -> ok4 v ->
      exec (callL fn lineLeft 4 t) (rotate (t mod 4) (list4 v) ++ m)
      = Ok (rotate (S t mod 4) (list4 (S.left4 X v t)) ++ m) /\ ok4 (S.left4 X v t).
    Proof.
      clear HeR. intros Ht Hv.
      rewrite (callL_ok fn lineLeft exec 4 _ HeL) by (try lia; rewrite rotate_length; apply list4_length).
      destruct (line4_ok t (1 + t / 16) (S.K_left t) (S.word_left t) (S.shift t (S.word_left t)) v) as [E Hk].
      { apply word_left_bound. lia. } { apply shift_left_bound. lia. } { exact Hv. }
      rewrite E. split; [reflexivity|exact Hk].
    Qed.
    Lemma right4_ok t v l : (t < 16 * 4)%nat -> ok4 v -> length l = 4%nat ->
      exec (callR fn lineRight 4 S.K_right4 t) (l ++ rotate (t mod 4) (list4 v))
      = Ok (l ++ rotate (S t mod 4) (list4 (S.right4 X v t))) /\ ok4 (S.right4 X v t).
    Proof.
      clear HeL. intros Ht Hv Hl.
      rewrite (callR_ok fn lineRight exec 4 _ HeR) by (try lia; try rewrite rotate_length; auto; apply list4_length).
      destruct (line4_ok t (4 - t / 16) (S.K_right4 t) (S.word_right t) (S.shift t (S.word_right t)) v) as [E Hk].
      { apply word_right_bound. lia. } { apply shift_right_bound. lia. } { exact Hv. }
      rewrite E. split; [reflexivity|exact Hk].
    Qed.
  End Four.

  Section Five.
    Variable fn : Type.
    Variables (lineLeft lineRight : fn) (exec : call fn -> list N -> res (list N)).
    Hypothesis HeL : forall regs args r, exec (Call lineLeft regs args) r = M.line (M.line5 (blk ++ tl)) args regs r.
    Hypothesis HeR : forall regs args r, exec (Call lineRight regs args) r = M.line (M.line5 (blk ++ tl)) args regs r.
    Lemma left5_ok t v m : (t < 16 * 5)%nat -> ok5 v ->
      exec (callL fn lineLeft 5 t) (rotate (t mod 5) (list5 v) ++ m)
      = Ok (rotate (S t mod 5) (list5 (S.left5 X v t)) ++ m) /\ ok5 (S.left5 X v t).
    Proof.
      clear HeR. intros Ht Hv.
      rewrite (callL_ok fn lineLeft exec 5 _ HeL) by (try lia; rewrite rotate_length; apply list5_length).
      destruct (line5_ok t (1 + t / 16) (S.K_left t) (S.word_left t) (S.shift t (S.word_left t)) v) as [E Hk].
      { apply word_left_bound. lia. } { apply shift_left_bound. lia. } { exact Hv. }
      rewrite E. split; [reflexivity|exact Hk].
    Qed.
    Lemma right5_ok t v l : (t < 16 * 5)%nat -> ok5 v -> length l = 5%nat ->
      exec (callR fn lineRight 5 S.K_right5 t) (l ++ rotate (t mod 5) (list5 v))
      = Ok (l ++ rotate (S t mod 5) (list5 (S.right5 X v t))) /\ ok5 (S.right5 X v t).
    Proof.
      clear HeL. intros Ht Hv Hl.
      rewrite (callR_ok fn lineRight exec 5 _ HeR) by (try lia; try rewrite rotate_length; auto; apply list5_length).
      destruct (line5_ok t (5 - t / 16) (S.K_right5 t) (S.word_right t) (S.shift t (S.word_right t)) v) as [E Hk].
      { apply word_right_bound. lia. } { apply shift_right_bound. lia. } { exact Hv. }
      rewrite E. split; [reflexivity|exact Hk].
    Qed.
  End Five.

  (** ** the four register computations *)

  Theorem rounds128 v : ok4 (fst v) -> ok4 (snd v) ->
    let w := S.lines (S.left4 X) (S.right4 X) S.no_exchange 4 v in
    foldM (M.exec128 (blk ++ tl)) Ripemd128Calls.calls (list4 (fst v) ++ list4 (snd v))
    = Ok (list4 (fst w) ++ list4 (snd w)).
  Proof.
    intros Hv Hv' w.
    assert (Ripemd128Calls.calls = flat_map (round_calls _ (callL _ Ripemd128Calls.lineLeft 4)
      (callR _ Ripemd128Calls.lineRight 4 S.K_right4) (fun _ => [])) (seq 0 4)) as -> by (vm_compute; reflexivity).
    destruct (lines_ok 4 4 S.vars4 _ list4 ok4 (M.exec128 (blk ++ tl)) (callL _ Ripemd128Calls.lineLeft 4)
      (callR _ Ripemd128Calls.lineRight 4 S.K_right4) (fun _ => []) (S.left4 X) (S.right4 X) S.no_exchange) with (v := v)
      as [E _]; auto.
    - apply list4_length.
    - intros. apply left4_ok; auto.
    - intros. apply right4_ok; auto.
    - rewrite E. unfold both. change (16 * 4 mod 4)%nat with 0%nat. unfold rotate. cbn [skipn firstn].
      rewrite !app_nil_r. reflexivity.
  Qed.

  Theorem rounds160 v : ok5 (fst v) -> ok5 (snd v) ->
    let w := S.lines (S.left5 X) (S.right5 X) S.no_exchange 5 v in
    foldM (M.exec160 (blk ++ tl)) Ripemd160Calls.calls (list5 (fst v) ++ list5 (snd v))
    = Ok (list5 (fst w) ++ list5 (snd w)).
  Proof.
    intros Hv Hv' w.
    assert (Ripemd160Calls.calls = flat_map (round_calls _ (callL _ Ripemd160Calls.lineLeft 5)
      (callR _ Ripemd160Calls.lineRight 5 S.K_right5) (fun _ => [])) (seq 0 5)) as -> by (vm_compute; reflexivity).
    destruct (lines_ok 5 5 S.vars5 _ list5 ok5 (M.exec160 (blk ++ tl)) (callL _ Ripemd160Calls.lineLeft 5)
      (callR _ Ripemd160Calls.lineRight 5 S.K_right5) (fun _ => []) (S.left5 X) (S.right5 X) S.no_exchange) with (v := v)
      as [E _]; auto.
    - apply list5_length.
    - intros. apply left5_ok; auto.
    - intros. apply right5_ok; auto.
    - rewrite E. unfold both. change (16 * 5 mod 5)%nat with 0%nat. unfold rotate. cbn [skipn firstn].
      rewrite !app_nil_r. reflexivity.
  Qed.

  Theorem rounds256 v : ok4 (fst v) -> ok4 (snd v) ->
    let w := S.lines (S.left4 X) (S.right4 X) S.exchange4 4 v in
    foldM (M.exec256 (blk ++ tl)) Ripemd256Calls.calls (list4 (fst v) ++ list4 (snd v))
    = Ok (list4 (fst w) ++ list4 (snd w)).
  Proof.
    intros Hv Hv' w.
    assert (Ripemd256Calls.calls = flat_map (round_calls _ (callL _ Ripemd256Calls.lineLeft 4)
      (callR _ Ripemd256Calls.lineRight 4 S.K_right4) (fun k => [Call Ripemd256Calls.swap [k; 4 + k]%nat []])) (seq 0 4))
      as -> by (vm_compute; reflexivity).
    destruct (lines_ok 4 4 S.vars4 _ list4 ok4 (M.exec256 (blk ++ tl)) (callL _ Ripemd256Calls.lineLeft 4)
      (callR _ Ripemd256Calls.lineRight 4 S.K_right4) (fun k => [Call Ripemd256Calls.swap [k; 4 + k]%nat []])
      (S.left4 X) (S.right4 X) S.exchange4) with (v := v)
      as [E _]; auto.
    - apply list4_length.
    - intros. apply left4_ok; auto.
    - intros. apply right4_ok; auto.
    - intros k [[[[a b] c] d] [[[a' b'] c'] d']] Hk H1 H2. unfold ok4 in *. cbn [fst snd list4] in *. inv_Forall.
      destruct k as [|[|[|[|k]]]]; [..|lia];
        (split; [reflexivity|]; cbn [S.exchange4 fst snd list4]; split; repeat constructor; assumption).
    - rewrite E. unfold both. change (16 * 4 mod 4)%nat with 0%nat. unfold rotate. cbn [skipn firstn].
      rewrite !app_nil_r. reflexivity.
  Qed.

  Theorem rounds320 v : ok5 (fst v) -> ok5 (snd v) ->
    let w := S.lines (S.left5 X) (S.right5 X) S.exchange5 5 v in
    foldM (M.exec320 (blk ++ tl)) Ripemd320Calls.calls (list5 (fst v) ++ list5 (snd v))
    = Ok (list5 (fst w) ++ list5 (snd w)).
  Proof.
    intros Hv Hv' w.
    assert (Ripemd320Calls.calls = flat_map (round_calls _ (callL _ Ripemd320Calls.lineLeft 5)
      (callR _ Ripemd320Calls.lineRight 5 S.K_right5) (fun k => [Call Ripemd320Calls.swap [k; 5 + k]%nat []])) (seq 0 5))
      as -> by (vm_compute; reflexivity).
    destruct (lines_ok 5 5 S.vars5 _ list5 ok5 (M.exec320 (blk ++ tl)) (callL _ Ripemd320Calls.lineLeft 5)
      (callR _ Ripemd320Calls.lineRight 5 S.K_right5) (fun k => [Call Ripemd320Calls.swap [k; 5 + k]%nat []])
      (S.left5 X) (S.right5 X) S.exchange5) with (v := v)
      as [E _]; auto.
    - apply list5_length.
    - intros. apply left5_ok; auto.
    - intros. apply right5_ok; auto.
    - intros k [[[[[a b] c] d] e] [[[[a' b'] c'] d'] e']] Hk H1 H2. unfold ok5 in *. cbn [fst snd list5] in *. inv_Forall.
      destruct k as [|[|[|[|[|k]]]]]; [..|lia];
        (split; [reflexivity|]; cbn [S.exchange5 fst snd list5]; split; repeat constructor; assumption).
    - rewrite E. unfold both. change (16 * 5 mod 5)%nat with 0%nat. unfold rotate. cbn [skipn firstn].
      rewrite !app_nil_r. reflexivity.
  Qed.
End Block.

(** ** the compression functions *)

Lemma add_all_ok n r st : (n <= length r)%nat -> length st = n ->
  M.add_all n r st = Ok (map (fun i => uadd 32 (nth i st 0) (nth i r 0)) (seq 0 n)).
Proof.
  intros Hr Hs. apply (for_update 0 (fun i s => uadd 32 s (nth i r 0))); [|exact Hs].
  intros i s Hi Hl. rewrite (aget_ok 0 s i), (aget_ok 0 r i) by lia. cbn [bind]. apply aset_ok. lia.
Qed.

Section Compress.
  Variables (blk tl : list N).
  Hypothesis Hlen : length blk = 64%nat.
  Hypothesis Hok : bytes_ok blk.

  Lemma compress128_ok h : words_ok 4 h ->
    M.compress128 (blk ++ tl) h = Ok (S.compress128 h blk) /\ words_ok 4 (S.compress128 h blk).
  Proof.
    intros [Hl Hh]. destruct (list_len4 h Hl) as (h0 & h1 & h2 & h3 & ->).
    pose proof (rounds128 blk tl Hlen Hok ((h0, h1, h2, h3), (h0, h1, h2, h3)) Hh Hh) as E.
    cbn [fst snd list4] in E.
    unfold M.compress128, S.compress128. cbn [mapM aget nth_error bind]. rewrite E. cbn [bind].
    destruct (S.lines _ _ _ _ _) as [[[[A B] C] D] [[[A' B'] C'] D']].
    split; [|split; [reflexivity|repeat constructor; apply bnd_sum]].
    cbn -[uadd sum]. f_equal. repeat (apply f_equal2; [sum_eq 32|]). reflexivity.
  Qed.

  Lemma compress160_ok h : words_ok 5 h ->
    M.compress160 (blk ++ tl) h = Ok (S.compress160 h blk) /\ words_ok 5 (S.compress160 h blk).
  Proof.
    intros [Hl Hh]. destruct (list_len5 h Hl) as (h0 & h1 & h2 & h3 & h4 & ->).
    pose proof (rounds160 blk tl Hlen Hok ((h0, h1, h2, h3, h4), (h0, h1, h2, h3, h4)) Hh Hh) as E.
    cbn [fst snd list5] in E.
    unfold M.compress160, S.compress160. cbn [mapM aget nth_error bind]. rewrite E. cbn [bind].
    destruct (S.lines _ _ _ _ _) as [[[[[A B] C] D] Ee] [[[[A' B'] C'] D'] E']].
    split; [|split; [reflexivity|repeat constructor; apply bnd_sum]].
    cbn -[uadd sum]. f_equal. repeat (apply f_equal2; [sum_eq 32|]). reflexivity.
  Qed.

  Lemma compress256_ok h : words_ok 8 h ->
    M.compress256 (blk ++ tl) h = Ok (S.compress256 h blk) /\ words_ok 8 (S.compress256 h blk).
  Proof.
    intros [Hl Hh]. destruct (list_len8 h Hl) as (h0 & h1 & h2 & h3 & h4 & h5 & h6 & h7 & ->).
    assert (ok4 (h0, h1, h2, h3) /\ ok4 (h4, h5, h6, h7)) as [H1 H2].
    { inv_Forall. split; repeat constructor; assumption. }
    pose proof (rounds256 blk tl Hlen Hok ((h0, h1, h2, h3), (h4, h5, h6, h7)) H1 H2) as E.
    cbn [fst snd list4 app] in E.
    unfold M.compress256, S.compress256. cbn [mapM aget nth_error bind]. rewrite E. cbn [bind].
    destruct (S.lines _ _ _ _ _) as [[[[A B] C] D] [[[A' B'] C'] D']].
    split; [|split; [reflexivity|repeat constructor; apply bnd_wadd]].
    rewrite add_all_ok by reflexivity. cbn -[uadd add]. now rewrite !uadd_spec.
  Qed.

  Lemma list_len10 (l : list N) : length l = 10%nat ->
    exists a b c d e f g h i j, l = [a; b; c; d; e; f; g; h; i; j].
  Proof. intros H. do 11 (destruct l as [|? l]; try discriminate). repeat eexists. Qed.

  Lemma compress320_ok h : words_ok 10 h ->
    M.compress320 (blk ++ tl) h = Ok (S.compress320 h blk) /\ words_ok 10 (S.compress320 h blk).
  Proof.
    intros [Hl Hh]. destruct (list_len10 h Hl) as (h0 & h1 & h2 & h3 & h4 & h5 & h6 & h7 & h8 & h9 & ->).
    assert (ok5 (h0, h1, h2, h3, h4) /\ ok5 (h5, h6, h7, h8, h9)) as [H1 H2].
    { inv_Forall. split; repeat constructor; assumption. }
    pose proof (rounds320 blk tl Hlen Hok ((h0, h1, h2, h3, h4), (h5, h6, h7, h8, h9)) H1 H2) as E.
    cbn [fst snd list5 app] in E.
    unfold M.compress320, S.compress320. cbn [mapM aget nth_error bind]. rewrite E. cbn [bind].
    destruct (S.lines _ _ _ _ _) as [[[[[A B] C] D] Ee] [[[[A' B'] C'] D'] E']].
    split; [|split; [reflexivity|repeat constructor; apply bnd_wadd]].
    rewrite add_all_ok by reflexivity. cbn -[uadd add]. now rewrite !uadd_spec.
  Qed.
End Compress.

Theorem ripemd128_correct dbg : Correct (M.cls128 dbg) S.ripemd128 (fun _ => True).
Proof.
  apply (class_le 4 dbg M.compress128 M.iv128 S.compress128); [|intros; apply compress128_ok; assumption|reflexivity].
  split; [reflexivity|]. apply Forall_bndb. reflexivity.
Qed.
Theorem ripemd160_correct dbg : Correct (M.cls160 dbg) S.ripemd160 (fun _ => True).
Proof.
  apply (class_le 5 dbg M.compress160 M.iv160 S.compress160); [|intros; apply compress160_ok; assumption|reflexivity].
  split; [reflexivity|]. apply Forall_bndb. reflexivity.
Qed.
Theorem ripemd256_correct dbg : Correct (M.cls256 dbg) S.ripemd256 (fun _ => True).
Proof.
  apply (class_le 8 dbg M.compress256 M.iv256 S.compress256); [|intros; apply compress256_ok; assumption|reflexivity].
  split; [reflexivity|]. apply Forall_bndb. reflexivity.
Qed.
Theorem ripemd320_correct dbg : Correct (M.cls320 dbg) S.ripemd320 (fun _ => True).
Proof.
  apply (class_le 10 dbg M.compress320 M.iv320 S.compress320); [|intros; apply compress320_ok; assumption|reflexivity].
  split; [reflexivity|]. apply Forall_bndb. reflexivity.
Qed.
