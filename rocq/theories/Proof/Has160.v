(** has_160.h computes HAS-160. *)
From Coq Require Import List NArith Arith Bool Lia.
From Verif.Base Require Import Res CWord.
From Verif.Spec Require Import Words Client Merkle.
From Verif.Spec Require Has160.
From Verif.Model Require Import Buffer Stream Api Call.
From Verif.Model.Gen Require Import Has160Calls Has160Tables.
From Verif.Model Require Has160.
From Verif.Proof Require Import Words Streaming Blocks Api MD Rounds Regs Class.
Import ListNotations.
Module S := Verif.Spec.Has160.
Module M := Verif.Model.Has160.
Local Open Scope N_scope.

Definition fn_of (t : nat) : fn :=
  match (t / 20)%nat with 0%nat => round1 | 1%nat => round2 | 2%nat => round3 | _ => round4 end.
Definition call_of (t : nat) : call fn :=
  Call (fn_of t) (regs_of 5 (t mod 5)) [S.s1 (t mod 20); N.of_nat t].
Definition round_calls (k : nat) : list (call fn) :=
  Call extendXTable [] [N.of_nat (20 * k)] :: map call_of (seq (20 * k) 20).

Lemma calls_regular : calls = flat_map round_calls (seq 0 4).
Proof. vm_compute. reflexivity. Qed.

Section Compress.
  Variables (blk tl : list N).
  Hypothesis Hlen : length blk = 64%nat.
  Hypothesis Hok : bytes_ok blk.
  Let X := le_words 4 blk.

  (** ** the table *)
  Definition words16 : list (option N) := map (fun j => Some (nth j X 0)) (seq 0 16).
  Definition tab (k : nat) : list (option N) := words16 ++ map (fun q => Some (S.group X k q)) (seq 0 4).

  Lemma fill_ok : M.fill_table (blk ++ tl) = Ok (words16 ++ repeat None 4).
  Proof.
    unfold M.fill_table.
    rewrite (for_ext _ (fun j x => aset x j (Some (nth j X 0)))).
    - reflexivity.
    - intros j x Hj. rewrite (load_le_ok 4 16) by (auto; lia). reflexivity.
  Qed.

  Lemma extend_ok k o : (k < 4)%nat -> length o = 4%nat ->
    M.extendTable (20 * k) (words16 ++ o) = Ok (tab k).
  Proof.
    intros Hk Ho. destruct (list_len4 o Ho) as (o1 & o2 & o3 & o4 & ->). unfold tab, words16. clearbody X.
    destruct k as [|[|[|[|k]]]]; [reflexivity..|lia].
  Qed.

  Lemma look_ok t : (t < 80)%nat -> M.look (tab (t / 20)) t = Ok (S.word X (t / 20) (t mod 20)).
  Proof.
    intros Ht. unfold tab, words16. clearbody X. clear -Ht.
    do 80 (destruct t as [|t]; [reflexivity|]). lia.
  Qed.

  (** ** the rounds *)
  Definition mfunc (k : nat) : N -> N -> N -> N := match k with 0%nat => M.F1 | 2%nat => M.F3 | _ => M.F2 end.
  Definition lam (t : nat) : list N -> res (list (nat * N)) :=
    M.round (tab (t / 20)) (mfunc (t / 20)) (S.K (t / 20)) (S.s2 (t / 20)) (S.s1 (t mod 20)) t.

  Lemma exec_call_of t r : (t < 80)%nat ->
    M.exec_call (call_of t) (r, tab (t / 20)) = let! r := call_regs (lam t) (regs_of 5 (t mod 5)) r in Ok (r, tab (t / 20)).
  Proof.
    intros Ht. unfold M.exec_call, call_of, lam, fn_of. cbn [c_args c_fn c_regs]. rewrite Nnat.Nat2N.id.
    assert (t / 20 < 4)%nat as H4 by (apply Nat.div_lt_upper_bound; lia).
    destruct (t / 20)%nat as [|[|[|[|]]]]; try lia; reflexivity.
  Qed.

  Lemma func_ok k b c d : bnd 32 b -> bnd 32 c -> bnd 32 d -> mfunc k b c d = S.f k b c d.
  Proof.
    intros Hb Hc Hd. unfold mfunc, S.f. destruct k as [|[|[|]]]; try reflexivity.
    - apply ch_alt_or; assumption.
    - unfold M.F3. rewrite unot_spec by assumption. reflexivity.
  Qed.

  Lemma s1_bound t : S.s1 (t mod 20) <= 32.
  Proof.
    apply N.leb_le. assert (t mod 20 < 20)%nat as H by (apply Nat.mod_upper_bound; lia).
    revert H. generalize (t mod 20)%nat. intros i H. do 20 (destruct i as [|i]; [reflexivity|]). lia.
  Qed.
  Lemma s2_bound k : S.s2 k <= 32.
  Proof. destruct k as [|[|[|[|[|k]]]]]; discriminate. Qed.

  Lemma step_ok t v : (t < 80)%nat -> Forall (bnd 32) (list5 v) ->
    call_regs (lam t) (regs_of 5 (t mod 5)) (rotate (t mod 5) (list5 v)) = Ok (rotate (S t mod 5) (list5 (S.step X v t)))
    /\ Forall (bnd 32) (list5 (S.step X v t)).
  Proof.
    intros Ht Hv. destruct v as [[[[a b] c] d] e]. cbn [list5] in Hv. inv_Forall. pose proof (s1_bound t).
    pose proof (s2_bound (t / 20)). unfold S.step. cbn [list5]. split.
    - rewrite <- rotate5. eapply call5.
      + unfold lam, M.round. rewrite look_ok by exact Ht. cbn [bind]. rewrite func_ok by assumption. reflexivity.
      + lia.
      + lia.
      + cbn [upd]. rewrite !rotl_spec by (auto with wb). repeat (apply f_equal2; [reflexivity|]).
        apply f_equal2; [sum_eq 32|reflexivity].
    - repeat constructor; auto; [apply bnd_sum|]. apply bnd_ROTL; assumption.
  Qed.

  Lemma rounds_ok v : Forall (bnd 32) (list5 v) ->
    let w := fold_left (S.step X) (seq 0 80) v in
    (exists x, foldM M.exec_call calls (list5 v, words16 ++ repeat None 4) = Ok (list5 w, x))
    /\ Forall (bnd 32) (list5 w).
  Proof.
    intros Hv w. rewrite calls_regular, foldM_flat_map, foldM_seq.
    destruct (for_inv (fun k s => let x := fold_left (S.step X) (seq 0 (20 * k)) v in
        fst s = list5 x /\ (exists o, length o = 4%nat /\ snd s = words16 ++ o) /\ Forall (bnd 32) (list5 x))
      (fun k => foldM M.exec_call (round_calls k)) 4 0 (list5 v, words16 ++ repeat None 4)) as (s & E & Hr & Hx & Hb).
    - cbv zeta. cbn [Nat.mul seq fold_left fst snd]. split; [reflexivity|]. split; [|exact Hv].
      eexists. split; [|reflexivity]. reflexivity.
    - intros k [r x0] Hk. cbv zeta. cbn [fst snd]. intros (-> & (o & Ho & ->) & Hb).
      unfold round_calls. cbn [foldM]. unfold M.exec_call at 1. cbn [c_fn c_args]. rewrite Nnat.Nat2N.id.
      rewrite extend_ok by (auto; lia). cbn [bind]. rewrite foldM_map, foldM_seq.
      destruct (for_inv (fun t s => let x := fold_left (S.step X) (seq 0 t) v in
          s = (rotate (t mod 5) (list5 x), tab k) /\ Forall (bnd 32) (list5 x))
        (fun t => M.exec_call (call_of t)) 20 (20 * k) (list5 (fold_left (S.step X) (seq 0 (20 * k)) v), tab k))
        as (s & E & Hs & Hb').
      + cbv zeta. split; [|exact Hb]. replace ((20 * k) mod 5)%nat with 0%nat.
        * unfold rotate. cbn [skipn firstn]. now rewrite app_nil_r.
        * replace (20 * k)%nat with (4 * k * 5)%nat by lia. symmetry. apply Nat.mod_mul. lia.
      + intros t s Ht. cbv zeta. intros (-> & Hb'). rewrite fold_left_seq_S.
        replace k with (t / 20)%nat by (symmetry; apply (Nat.div_unique _ _ _ (t - 20 * k)); lia).
        rewrite exec_call_of by lia. destruct (step_ok t _ ltac:(lia) Hb') as [Es Hbs]. rewrite Es. cbn [bind].
        eexists. split; [reflexivity|]. split; [reflexivity|exact Hbs].
      + rewrite E. cbv zeta in *. rewrite Hs. eexists. split; [reflexivity|]. cbn [fst snd].
        replace (20 * k + 20)%nat with (20 * S k)%nat in * by lia.
        split; [|split; [|exact Hb']].
        * replace ((20 * S k) mod 5)%nat with 0%nat.
          -- unfold rotate. cbn [skipn firstn]. now rewrite app_nil_r.
          -- replace (20 * S k)%nat with (4 * S k * 5)%nat by lia. symmetry. apply Nat.mod_mul. lia.
        * eexists. split; [|reflexivity]. reflexivity.
    - rewrite E. cbv zeta in *. destruct s as [r x]. cbn [fst] in Hr. rewrite Hr. split; [|exact Hb].
      exists x. reflexivity.
  Qed.

  Lemma compress_ok h : words_ok 5 h ->
    M.compress (blk ++ tl) h = Ok (S.compress h blk) /\ words_ok 5 (S.compress h blk).
  Proof.
    intros [Hl Hh]. destruct (list_len5 h Hl) as (h0 & h1 & h2 & h3 & h4 & ->).
    destruct (rounds_ok (h0, h1, h2, h3, h4) Hh) as [[x E] Eb].
    unfold M.compress, S.compress, S.vars. rewrite fill_ok. cbn [mapM aget nth_error bind].
    cbn [list5] in E. rewrite E. cbn [bind fst]. fold X. clear E. unfold S.vars in *.
    match goal with |- context [list5 ?V] => destruct V as [[[[a b] c] d] e] end.
    split.
    - cbn -[uadd add]. rewrite !uadd_spec. reflexivity.
    - split; [reflexivity|]. repeat constructor; apply bnd_wadd.
  Qed.
End Compress.

Theorem has160_correct dbg : Correct (M.cls dbg) S.has160 (fun _ => True).
Proof.
  apply (class_le 5 dbg M.compress M.iv S.compress); [|intros; apply compress_ok; assumption|reflexivity].
  split; [reflexivity|]. apply Forall_bndb. reflexivity.
Qed.
