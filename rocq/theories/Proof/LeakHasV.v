(** HAS-V: the functions with indices and branches are those of Model/HasV.v; what they show depends on sizes only; the
    work is proportional to the data. *)
From Coq Require Import List NArith ZArith Arith Bool Lia.
From Verif.Base Require Import CWord.
From Verif.Base Require Res.
From Verif.Spec Require Import Client Shape Work.
From Verif.Model Require Import Call Api LeakLibrary LeakHasV.
From Verif.Model Require Stream HasV.
From Verif.Model.Gen Require HasVCalls HasVTables.
From Verif.Model.Leak Require LkCall LkStream LkHasV.
From Verif.Base Require Import Leak.
From Verif.Proof Require Import LeakErase LeakEqual LeakPrograms LeakWork LeakLinear.
Import ListNotations.
Local Open Scope nat_scope.

(** ** the same functions *)
Lemma er_func n : er (LkHasV.func n) (HasV.func n).
Proof. unfold LkHasV.func, HasV.func. destruct n as [|[[p|p|]|[[p|p|]|[p|p|]|]|]]; first [apply er_ok|apply er_ub]. Qed.
Lemma er_fill_table m f : er (LkHasV.fill_table m f) (HasV.fill_table m f).
Proof. go LkHasV.fill_table HasV.fill_table. Qed.
Lemma er_xor4 x l i : er (LkHasV.xor4 x l i) (HasV.xor4 x l i).
Proof. go LkHasV.xor4 HasV.xor4. Qed.
Global Hint Resolve er_func er_fill_table er_xor4 : er.
Lemma er_extend r x : er (LkHasV.extend r x) (HasV.extend r x).
Proof. go LkHasV.extend HasV.extend. Qed.
Lemma er_line x f k j p : er (LkHasV.line x f k j p) (HasV.line x f k j p).
Proof. go LkHasV.line HasV.line. Qed.
Lemma er_swap r : er (LkHasV.swapVars r) (HasV.swapVars r).
Proof. go LkHasV.swapVars HasV.swapVars. Qed.
Global Hint Resolve er_extend er_line er_swap : er.
Lemma er_hv_call c s : er (LkHasV.exec_call c s) (HasV.exec_call c s).
Proof. go LkHasV.exec_call HasV.exec_call. Qed.
Global Hint Resolve er_hv_call : er.
Lemma er_hv m h : er (LkHasV.compress m h) (HasV.compress m h).
Proof. go LkHasV.compress HasV.compress. Qed.
Lemma er_hv_impl dbg d s : er (LkHasV.impl dbg d s) (HasV.impl dbg d s).
Proof. apply er_md_impl. exact er_hv. Qed.
Lemma er_append d : forall b, er (LkHasV.vec_append d b) (Res.Ok (b ++ d)).
Proof.
  unfold LkHasV.vec_append. induction d as [|v d IH]; intros b; cbn [foldM]; apply er_tell; [rewrite app_nil_r; apply er_ok|].
  change (v :: d) with ([v] ++ d). rewrite app_assoc. eapply er_then; [apply er_tell, er_ok|apply IH].
Qed.
Lemma er_end k i v b : er (LkHasV.set_from_end k i v b) (HasV.set_from_end k i v b).
Proof. go LkHasV.set_from_end HasV.set_from_end. Qed.
Global Hint Resolve er_hv_impl er_end : er.
Lemma er_hv_tail dbg d b s : er (LkHasV.addData_tail dbg d b s) (HasV.addData_tail dbg d b s).
Proof.
  unfold LkHasV.addData_tail, HasV.addData_tail. cbv zeta. apply er_tell. destruct (length d <? 128).
  - eapply er_then; [apply er_append|]. apply er_ok.
  - apply er_bind; [apply er_first|]. intros. apply er_bind; [apply er_hv_impl|]. intros. apply er_tell. destruct (_ <? _); [|apply er_ok].
    eapply er_then; [apply er_append|]. apply er_ok.
Qed.
Lemma er_hv_add dbg d o : er (LkHasV.addData dbg d o) (HasV.addData dbg d o).
Proof.
  destruct o as [b s]. unfold LkHasV.addData, HasV.addData. cbv zeta. apply er_tell. destruct b as [|x b]; [apply er_hv_tail|]. set (c := x :: b).
  change (negb (length c =? 0)) with true. cbv iota. eapply er_then; [apply er_append|]. apply er_tell. destruct (_ <? 128); [apply er_ok|].
  apply er_bind; [apply er_hv_impl|]. intros. apply er_bind; [apply er_sub|]. intros. apply er_hv_tail.
Qed.
Lemma er_hv_fin dbg o : er (LkHasV.finalize dbg o) (HasV.finalize dbg o).
Proof.
  destruct o as [b s]. unfold LkHasV.finalize, HasV.finalize. cbv zeta. eapply er_then; [apply er_append|]. eapply er_then; [apply er_append|]. er.
Qed.
Theorem faithful_hv dbg : faithful (HasV.cls dbg) (has_v dbg).
Proof. repeat apply conj; intros; [apply er_hv_add|apply er_hv_fin|apply er_store]. Qed.
Theorem seen_erases dbg p : outcome (seen dbg p) = exec (HasV.cls dbg) p (fun _ => c_new (HasV.cls dbg)).
Proof. apply er_run, faithful_hv. Qed.

(** ** the same indices and branches *)
Definition vrel (s t : HasV.vars) : Prop := sl (HasV.v_regs s) (HasV.v_regs t) /\ tab (HasV.v_x s) (HasV.v_x t) /\ tab (HasV.v_y s) (HasV.v_y t).
Lemma ct_fill_table m n f : sl m n -> ct tab (LkHasV.fill_table m f) (LkHasV.fill_table n f).
Proof. intros H. unfold LkHasV.fill_table. ct. Qed.
Lemma ct_xor4 x y l i : tab x y -> ct any (LkHasV.xor4 x l i) (LkHasV.xor4 y l i).
Proof. intros H. unfold LkHasV.xor4. ct. Qed.
Global Hint Resolve ct_fill_table ct_xor4 : ct.
Lemma ct_extend r x y : tab x y -> ct tab (LkHasV.extend r x) (LkHasV.extend r y).
Proof. intros H. unfold LkHasV.extend. ct. Qed.
Lemma ct_line x y f k j u v : tab x y -> sl u v -> ct wr (LkHasV.line x f k j u) (LkHasV.line y f k j v).
Proof. intros H L. unfold LkHasV.line. do 6 (shape L u v; try apply ct_ub). ct. Qed.
Lemma ct_swap u v : sl u v -> ct sl (LkHasV.swapVars u) (LkHasV.swapVars v).
Proof. intros L. unfold LkHasV.swapVars. do 11 (shape L u v; try apply ct_ub). apply ct_ok. reflexivity. Qed.
Lemma ct_hv_call c s t : vrel s t -> ct vrel (LkHasV.exec_call c s) (LkHasV.exec_call c t).
Proof.
  intros (H & X & Y). unfold LkHasV.exec_call. destruct c as [fn regs args]. cbn [c_fn c_args c_regs].
  assert (forall k j f, ct vrel (let! f := LkHasV.func f in let! r := LkCall.call_regs (LkHasV.line (HasV.v_x s) f k (N.to_nat j)) regs (HasV.v_regs s) in Ok (HasV.mkVars r (HasV.v_x s) (HasV.v_y s)))
    (let! f := LkHasV.func f in let! r := LkCall.call_regs (LkHasV.line (HasV.v_x t) f k (N.to_nat j)) regs (HasV.v_regs t) in Ok (HasV.mkVars r (HasV.v_x t) (HasV.v_y t)))) as KL.
  { intros k j f. apply ct_same. intros F. eapply (ct_bind sl); [apply ct_call; [intros; now apply ct_line|exact H]|]. intros. apply ct_ok. split; [|split]; assumption. }
  assert (forall k j f, ct vrel (let! f := LkHasV.func f in let! r := LkCall.call_regs (LkHasV.line (HasV.v_y s) f k (N.to_nat j)) regs (HasV.v_regs s) in Ok (HasV.mkVars r (HasV.v_x s) (HasV.v_y s)))
    (let! f := LkHasV.func f in let! r := LkCall.call_regs (LkHasV.line (HasV.v_y t) f k (N.to_nat j)) regs (HasV.v_regs t) in Ok (HasV.mkVars r (HasV.v_x t) (HasV.v_y t)))) as KR.
  { intros k j f. apply ct_same. intros F. eapply (ct_bind sl); [apply ct_call; [intros; now apply ct_line|exact H]|]. intros. apply ct_ok. split; [|split]; assumption. }
  assert (forall r, ct vrel (let! x := LkHasV.extend r (HasV.v_x s) in Ok (HasV.mkVars (HasV.v_regs s) x (HasV.v_y s))) (let! x := LkHasV.extend r (HasV.v_x t) in Ok (HasV.mkVars (HasV.v_regs t) x (HasV.v_y t)))) as KX.
  { intros r. eapply (ct_bind tab); [now apply ct_extend|]. intros. apply ct_ok. split; [|split]; assumption. }
  assert (forall r, ct vrel (let! y := LkHasV.extend r (HasV.v_y s) in Ok (HasV.mkVars (HasV.v_regs s) (HasV.v_x s) y)) (let! y := LkHasV.extend r (HasV.v_y t) in Ok (HasV.mkVars (HasV.v_regs t) (HasV.v_x t) y))) as KY.
  { intros r. eapply (ct_bind tab); [now apply ct_extend|]. intros. apply ct_ok. split; [|split]; assumption. }
  assert (ct vrel (let! r := LkHasV.swapVars (HasV.v_regs s) in Ok (HasV.mkVars r (HasV.v_x s) (HasV.v_y s))) (let! r := LkHasV.swapVars (HasV.v_regs t) in Ok (HasV.mkVars r (HasV.v_x t) (HasV.v_y t)))) as KS.
  { eapply (ct_bind sl); [now apply ct_swap|]. intros. apply ct_ok. split; [|split]; assumption. }
  destruct fn; repeat (match goal with
    | |- ct _ (match ?x with _ => _ end) _ => destruct x
    end); lazymatch goal with
    | |- ct _ (Ub _) _ => apply ct_ub
    | |- ct _ (bind (LkHasV.extend _ (HasV.v_x _)) _) _ => apply KX
    | |- ct _ (bind (LkHasV.extend _ (HasV.v_y _)) _) _ => apply KY
    | |- ct _ (bind (LkHasV.swapVars _) _) _ => apply KS
    | |- context [LkHasV.line (HasV.v_x _)] => apply KL
    | |- _ => apply KR
    end.
Qed.
Lemma ct_hv m n h k : sl m n -> sl h k -> ct sl (LkHasV.compress m h) (LkHasV.compress n k).
Proof.
  intros L M. unfold LkHasV.compress. eapply ct_bind; [apply ct_fill_table, L|]. intros x y X. eapply ct_bind; [apply ct_fill_table, L|]. intros x' y' Y.
  eapply ct_bind; [apply ct_map; intros; apply ct_get, M|]. intros u v V.
  eapply (ct_bind vrel); [apply ct_fold_same; [intros; now apply ct_hv_call|split; [|split]; assumption]|]. intros s t (Hs & _). ct.
Qed.
Lemma ct_append d e b c : sl d e -> sl b c -> ct sl (LkHasV.vec_append d b) (LkHasV.vec_append e c).
Proof. intros L M. unfold LkHasV.vec_append. apply ct_fold_sl; [|exact L|exact M]. intros x y s t K. rewrite K. apply ct_tell, ct_ok. now apply sl_app. Qed.
Lemma ct_end k i v w b c : sl b c -> ct sl (LkHasV.set_from_end k i v b) (LkHasV.set_from_end k i w c).
Proof. intros L. unfold LkHasV.set_from_end. rewrite L. apply ct_tell. destruct (_ <? _); [apply ct_ub|now apply ct_set]. Qed.
Definition orel (o q : HasV.Obj) : Prop := sl (fst o) (fst q) /\ md_rel sl (snd o) (snd q).
Lemma ct_hv_impl dbg d e s t : sl d e -> md_rel sl s t -> ct (md_rel sl) (LkHasV.impl dbg d s) (LkHasV.impl dbg e t).
Proof. intros. apply ct_md_impl; [exact ct_hv|assumption|assumption]. Qed.
Lemma ct_hv_tail dbg d e b c s t : sl d e -> sl b c -> md_rel sl s t -> ct orel (LkHasV.addData_tail dbg d b s) (LkHasV.addData_tail dbg e c t).
Proof.
  intros L M Q. unfold LkHasV.addData_tail. cbv zeta. rewrite L. apply ct_tell. destruct (_ <? 128).
  - eapply ct_bind; [now apply ct_append|]. intros. apply ct_ok. split; assumption.
  - eapply ct_bind; [now apply ct_first|]. intros x y X. eapply ct_bind; [apply ct_hv_impl; [exact X|exact Q]|]. intros s' t' Q'.
    apply ct_tell. destruct (_ <? _); [|apply ct_ok; split; assumption]. eapply ct_bind; [apply ct_append; [apply sl_skip, L|reflexivity]|]. intros. apply ct_ok. split; assumption.
Qed.
Lemma ct_hv_add dbg d e o q : sl d e -> orel o q -> ct orel (LkHasV.addData dbg d o) (LkHasV.addData dbg e q).
Proof.
  destruct o as [b s], q as [c t]. intros L [M Q]. cbn [fst snd] in M, Q. unfold LkHasV.addData. cbv zeta. rewrite M, L. apply ct_tell. destruct (negb _); [|now apply ct_hv_tail].
  eapply ct_bind; [apply ct_append; [apply sl_first, L|exact M]|]. intros x y X. rewrite X. apply ct_tell. destruct (_ <? 128); [apply ct_ok; split; assumption|].
  eapply ct_bind; [apply ct_hv_impl; assumption|]. intros s' t' Q'. eapply ct_bind; [now apply ct_sub|]. intros. now apply ct_hv_tail.
Qed.
Lemma ct_hv_fin dbg o q : orel o q -> ct orel (LkHasV.finalize dbg o) (LkHasV.finalize dbg q).
Proof.
  destruct o as [b s], q as [c t]. intros [M Q]. cbn [fst snd] in M, Q. unfold LkHasV.finalize. cbv zeta. rewrite M, (proj1 Q).
  eapply ct_bind; [apply ct_append; [reflexivity|exact M]|]. intros x y X. rewrite X. eapply ct_bind; [apply ct_append; [reflexivity|exact X]|]. intros x1 y1 X1.
  eapply ct_bind; [apply ct_end, X1|]. intros x2 y2 X2. eapply (ct_bind sl).
  - apply ct_for; [|exact X2]. intros i u v U. eapply ct_bind; [apply ct_end, U|]. intros. now apply ct_end.
  - intros x3 y3 X3. eapply ct_bind; [apply ct_hv_impl; [exact X3|split; [reflexivity|exact (proj2 Q)]]|]. intros. apply ct_ok. split; [reflexivity|assumption].
Qed.
Lemma quiet_hv dbg : alike_by (C := HasV.cls dbg) (D := HasV.cls dbg) (has_v dbg) (has_v dbg) orel.
Proof.
  unfold alike_by. split; [|split; [|split; [|split]]].
  - split; [reflexivity|split; reflexivity].
  - intros. now apply ct_hv_add.
  - intros. now apply ct_hv_fin.
  - intros. split; [reflexivity|split; reflexivity].
  - intros x y (_ & _ & H). apply ct_store, sl_le, H.
Qed.
Theorem seen_equal dbg p q : same_shape p q -> no_text p -> ct any (seen dbg p) (seen dbg q).
Proof. intros S T. apply (ct_run (HasV.cls dbg) (HasV.cls dbg) (has_v dbg) (has_v dbg) orel (quiet_hv dbg) p q S T). intros i. exact (proj1 (quiet_hv dbg)). Qed.

(** ** the work *)
Lemma hv_func n : lim 0 (LkHasV.func n).
Proof. unfold LkHasV.func. destruct n as [|[[p|p|]|[[p|p|]|[p|p|]|]|]]; first [apply lim_ok|apply lim_ub]. Qed.
Lemma hv_call c : exists n, forall (_ : unit) s, lim n (LkHasV.exec_call c s).
Proof.
  destruct c as [fn regs args]. unfold LkHasV.exec_call. cbn [c_args c_regs c_fn].
  assert (forall x f k j, short 3 (LkHasV.line x f k j)) as S. { intros. unfold LkHasV.line. short_tac. }
  assert (forall r x, lim 100 (LkHasV.extend r x)) as E. { intros. unfold LkHasV.extend, LkHasV.xor4. eapply lim_weak; [lims|cbn; lia]. }
  assert (forall r, lim 0 (LkHasV.swapVars r)) as W. { intros r. unfold LkHasV.swapVars. lists r ltac:(apply lim_ub). apply lim_ok. }
  exists (100 + length regs + 30). intros _ s.
  assert (forall A (x : res A) f, lim 100 x -> lim (100 + length regs + 30) (bind x (fun a => Ok (f a : HasV.vars)))) as T.
  { intros A x f Hx. eapply lim_weak; [eapply lim_bind; [exact Hx|intros; apply lim_ok]|lia]. }
  assert (forall t f k j g, lim (100 + length regs + 30) (let! f := LkHasV.func f in let! r := LkCall.call_regs (LkHasV.line t f k j) regs (HasV.v_regs s) in Ok (g r : HasV.vars))) as U.
  { intros t f k j g. eapply lim_weak; [eapply lim_bind; [apply hv_func|intros F]; eapply lim_bind; [apply lim_short, S|intros; apply lim_ok]|lia]. }
  destruct fn; repeat (match goal with
    | |- lim _ (match ?x with _ => _ end) => destruct x
    end); lazymatch goal with
    | |- lim _ (Ub _) => apply lim_ub
    | |- lim _ (bind (LkHasV.extend _ _) _) => apply T, E
    | |- lim _ (bind (LkHasV.swapVars _) _) => apply T; eapply lim_weak; [apply W|lia]
    | |- _ => apply U
    end.
Qed.
Lemma hv_lim : exists n, forall m st, lim n (LkHasV.compress m st).
Proof.
  destruct (lim_calls (fun _ : unit => LkHasV.exec_call) hv_call HasVCalls.calls) as [k K]. specialize (K tt).
  assert (forall m f, lim 97 (LkHasV.fill_table m f)) as F. { intros. unfold LkHasV.fill_table. eapply lim_weak; [apply (lim_for 5); intros; apply (lim_bind 4 1); [apply lim_le|intros; apply lim_set]|lia]. }
  eexists. intros. unfold LkHasV.compress. eapply lim_bind; [apply F|intros]. eapply lim_bind; [apply F|intros].
  eapply lim_bind; [eapply lim_map; intros; apply lim_get|intros]. eapply lim_bind; [apply K|intros]. apply lim_for. intros. lim.
Qed.
Lemma lim_append d b : lim (2 * length d + 1) (LkHasV.vec_append d b).
Proof. unfold LkHasV.vec_append. eapply lim_weak; [apply (lim_fold 1); intros; apply lim_tell, lim_ok|lia]. Qed.
Lemma post_append d b : post (fun r => r = b ++ d) (LkHasV.vec_append d b).
Proof. intros r E. rewrite (er_append d b) in E. now injection E. Qed.
Lemma lim_end k i v b : lim 2 (LkHasV.set_from_end k i v b).
Proof. unfold LkHasV.set_from_end. eapply lim_weak; [lim|lia]. Qed.
Lemma post_end n k i v b : length b = n -> post (fun r => length r = n) (LkHasV.set_from_end k i v b).
Proof. intros H. unfold LkHasV.set_from_end. apply post_tell. destruct (_ <? _); [apply post_ub|apply post_set, H]. Qed.

Section Work.
  Context (cc : nat) (Hc : forall m st, lim cc (LkHasV.compress m st)) (dbg : bool).
  Lemma hv_impl_lim d s : lim ((cc + 3) * S (length d)) (LkHasV.impl dbg d s).
  Proof using Hc. apply (md_impl_lim (H := list N) 128 dbg LkHasV.compress cc); [discriminate|exact Hc|exact I]. Qed.
  (** the buffer does not hold a block *)
  Definition small (o : HasV.Obj) : Prop := length (fst o) < 128.
  Lemma hv_tail_lim d b s : length b < 128 -> lim ((cc + 16) * S (length d)) (LkHasV.addData_tail dbg d b s) /\ post small (LkHasV.addData_tail dbg d b s).
  Proof using Hc.
    intros Hb. unfold LkHasV.addData_tail. cbv zeta. pose proof (Nat.mod_upper_bound (length d) 128 ltac:(discriminate)) as Hm.
    pose proof (Nat.mod_le (length d) 128 ltac:(discriminate)) as Hl. revert Hm Hl. generalize (length d mod 128). intros r Hm Hl. split.
    - apply (lim_weak (S ((2 * length d + 1 + 0) + (1 + ((cc + 3) * S (length d) + S ((2 * length d + 1 + 0) + 0)))))); [|nia].
      apply lim_if; [apply lim_bind; [apply lim_append|intros; apply lim_ok]|].
      apply (lim_post (fun r => length r <= length d)); [apply lim_first|apply post_first|]. intros x Hx. apply lim_bind; [eapply lim_weak; [apply hv_impl_lim|nia]|]. intros s'.
      apply lim_if; [|apply lim_ok]. apply lim_bind; [|intros; apply lim_ok]. eapply lim_weak; [apply lim_append|]. rewrite skipn_length. lia.
    - apply post_tell. destruct (Nat.ltb_spec (length d) 128) as [H|H].
      + eapply post_bind; [apply post_append|]. intros x ->. apply post_ok. exact H.
      + apply post_any. intros x. apply post_any. intros s'. apply post_tell. destruct (_ <? _); [|apply post_ok, Hb].
        eapply post_bind; [apply post_append|]. intros y ->. apply post_ok. unfold small. cbn [fst app]. rewrite skipn_length. lia.
  Qed.
  Lemma hv_add_lim d o : small o -> lim ((cc + 16) * 300 * S (length d)) (LkHasV.addData dbg d o) /\ post small (LkHasV.addData dbg d o).
  Proof using Hc.
    destruct o as [b s]. unfold small at 1. cbn [fst]. intros Hb. unfold LkHasV.addData. cbv zeta.
    destruct (Nat.leb_spec (length b) 128) as [_|?]; [|lia]. set (q := Nat.min (128 - length b) (length d)).
    assert (length (b ++ firstn q d) <= 128) as Hq. { rewrite app_length, firstn_length. lia. }
    split.
    - apply (lim_weak (S ((2 * length d + 1 + S (0 + ((cc + 3) * 129 + (1 + (cc + 16) * S (length d))))) + (cc + 16) * S (length d)))); [|nia].
      apply lim_if; [|now apply hv_tail_lim]. eapply lim_post; [eapply lim_weak; [apply lim_append|rewrite firstn_length; lia]|apply post_append|]. intros x ->.
      apply lim_if; [apply lim_ok|]. apply lim_bind; [eapply lim_weak; [apply hv_impl_lim|nia]|]. intros s'.
      apply (lim_post (fun r => length r <= length d)); [apply lim_sub|apply post_sub|]. intros r Hr. eapply lim_weak; [apply hv_tail_lim; cbn; lia|nia].
    - apply post_tell. destruct (negb _); [|now apply hv_tail_lim]. eapply post_bind; [apply post_append|]. intros x ->.
      apply post_tell. destruct (Nat.ltb_spec (length (b ++ firstn q d)) 128); [apply post_ok; assumption|]. apply post_any. intros s'. apply post_any. intros r. apply hv_tail_lim. cbn. lia.
  Qed.
  Lemma hv_fin_lim o : small o -> lim ((cc + 16) * 300) (LkHasV.finalize dbg o) /\ post small (LkHasV.finalize dbg o).
  Proof using Hc.
    destruct o as [b s]. unfold small at 1. cbn [fst]. intros Hb. unfold LkHasV.finalize. cbv zeta. split; [|repeat (apply post_any; intros); apply post_ok; unfold small; cbn; lia].
    apply (lim_weak (3 + ((2 * (128 + 9) + 1) + (2 + (4 * (4 + 1) + 1 + ((cc + 3) * S (128 + 128 + 9) + 0)))))); [|lia].
    eapply lim_post; [apply (lim_append [128%N])|apply post_append|]. intros x ->.
    pose proof (pad_le 128 9 (length (b ++ [128%N])) ltac:(discriminate)) as Hp. set (n := Stream.pad_len 128 9 (length (b ++ [128%N]))) in *. clearbody n.
    eapply lim_post; [eapply lim_weak; [apply lim_append|rewrite repeat_length; lia]|apply post_append|]. intros y ->.
    assert (length ((b ++ [128%N]) ++ repeat 0%N (n + 9)) <= 128 + 128 + 9) as Hy. { rewrite !app_length, repeat_length. cbn [length]. lia. }
    set (y := (b ++ [128%N]) ++ repeat 0%N (n + 9)) in *. clearbody y.
    apply (lim_post (fun r => length r = length y)); [apply lim_end|now apply post_end|]. intros z Hz.
    apply (lim_post (fun r => length r = length y)).
    - apply (lim_for 4). intros. apply (lim_bind 2 2); intros; apply lim_end.
    - apply post_for; [|exact Hz]. intros i t Ht. apply (post_bind (fun r => length r = length y)); [now apply post_end|]. intros. now apply post_end.
    - intros t Ht. apply lim_bind; [|intros; apply lim_ok]. eapply lim_weak; [apply hv_impl_lim|]. rewrite Ht. nia.
  Qed.
  Lemma hv_linear : linear (HasV.cls dbg) (has_v dbg) ((cc + 16) * 300) 40.
  Proof using Hc.
    exists small. split; [unfold small; cbn; lia|]. split; [intros; unfold small; cbn; lia|]. split; [exact hv_add_lim|]. split.
    - intros x Hx. destruct (hv_fin_lim x Hx) as [K1 K2]. split; [eapply lim_weak; [exact K1|lia]|exact K2].
    - intros x Hx. destruct (store_array_fits 40 (flat_map (Stream.word_bytes_le 4) (Stream.md_h (snd x)))) as [K1 K2]. split; [eapply lim_weak; [exact K1|lia]|].
      intros r E. rewrite (K2 r E). apply le_n.
  Qed.
End Work.

Theorem hv_work : exists k, forall dbg p, length (trace (seen dbg p)) <= k * program_size p.
Proof.
  destruct hv_lim as [cc Hc]. exists (((cc + 16) * 300 + 4) * 41). intros dbg p. destruct (hv_linear cc Hc dbg) as (J & Hn & Hr & Ha & Hf & Hx).
  apply (run_lim _ _ _ 40 J Hr Ha Hf Hx p). intros. exact Hn.
Qed.
Theorem hv_call_work : exists k, forall dbg p os st i o, exec (HasV.cls dbg) p (fun _ => c_new (HasV.cls dbg)) = Res.Ok (os, st) ->
  length (trace (run_op (HasV.cls dbg) (has_v dbg) o (st i))) <= match o with AddData e => k * S (length e) | _ => k end.
Proof.
  destruct hv_lim as [cc Hc]. exists (((cc + 16) * 300 + 4) * 41). intros dbg p os st i o E. rewrite <- seen_erases in E. destruct (hv_linear cc Hc dbg) as (J & Hn & Hr & Ha & Hf & Hx).
  destruct (run_lim _ _ _ 40 J Hr Ha Hf Hx p (fun _ => c_new (HasV.cls dbg)) (fun _ => Hn)) as [_ P].
  eapply lim_weak; [apply (op_lim _ _ _ 40 J Hr Ha Hf Hx), (P (os, st) E)|]. destruct o; cbn [op_cost]; try apply le_n. nia.
Qed.
