(** Tools for unrolled rounds: schedules, tables filled in order, rotating registers. *)
From Coq Require Import List NArith Arith Bool Lia.
From Verif.Base Require Import Res CWord.
From Verif.Spec Require Import Words.
From Verif.Proof Require Import Words.
Import ListNotations.

(** ** extend *)

Lemma extend_length {A} (f : list A -> A) n l : length (extend f n l) = length l + n.
Proof.
  revert l; induction n as [|n IH]; intros l; cbn [extend]; [lia|].
  rewrite IH, app_length. cbn. lia.
Qed.

Lemma extend_prefix {A} (f : list A -> A) n : forall l, exists t, extend f n l = l ++ t.
Proof.
  induction n as [|n IH]; intros l; cbn [extend].
  - exists []. now rewrite app_nil_r.
  - destruct (IH (l ++ [f l])) as [t Ht]. exists (f l :: t). rewrite Ht, <- app_assoc. reflexivity.
Qed.

Lemma extend_firstn {A} (f : list A -> A) n l k : k <= length l -> firstn k (extend f n l) = firstn k l.
Proof.
  intros H. destruct (extend_prefix f n l) as [t ->].
  rewrite firstn_app. replace (k - length l) with 0 by lia. cbn. apply app_nil_r.
Qed.

Lemma extend_nth_l {A} (d : A) (f : list A -> A) n l k : k < length l -> nth k (extend f n l) d = nth k l d.
Proof. intros H. destruct (extend_prefix f n l) as [t ->]. apply app_nth1, H. Qed.

Lemma extend_nth {A} (d : A) (f : list A -> A) n : forall l t, length l <= t < length l + n ->
  nth t (extend f n l) d = f (firstn t (extend f n l)).
Proof.
  induction n as [|n IH]; intros l t H; [lia|]. cbn [extend].
  destruct (Nat.eq_dec t (length l)) as [->|Hne].
  - rewrite extend_nth_l by (rewrite app_length; cbn; lia).
    rewrite extend_firstn by (rewrite app_length; cbn; lia).
    rewrite app_nth2, Nat.sub_diag by lia. rewrite firstn_app, Nat.sub_diag, firstn_all. cbn. now rewrite app_nil_r.
  - apply IH. rewrite app_length; cbn; lia.
Qed.

(** [back] in a prefix of the finished list *)
Lemma back_firstn W t i : 0 < i -> i <= t -> t <= length W -> back (firstn t W) i = nth (t - i) W 0%N.
Proof.
  intros H0 H1 H2. unfold back. rewrite firstn_length_le by exact H2.
  rewrite <- (firstn_skipn t W) at 2. rewrite app_nth1; [reflexivity|].
  rewrite firstn_length_le by exact H2. lia.
Qed.

(** ** tables that are written in order *)

(** the table after the first t entries of W have been written *)
Definition filled (n t : nat) (W : list N) : list N := firstn t W ++ repeat 0%N (n - t).

Lemma filled_length n t W : t <= n -> length W = n -> length (filled n t W) = n.
Proof. intros H E. unfold filled. rewrite app_length, repeat_length, firstn_length_le by lia. lia. Qed.

Lemma filled_0 n W : filled n 0 W = repeat 0%N n.
Proof. unfold filled. cbn. now rewrite Nat.sub_0_r. Qed.

Lemma filled_all n W : length W = n -> filled n n W = W.
Proof. intros H. unfold filled. rewrite Nat.sub_diag, firstn_all2 by lia. apply app_nil_r. Qed.

Lemma aget_filled n t W j : j < t -> t <= length W -> aget (filled n t W) j = Ok (nth j W 0%N).
Proof.
  intros H1 H2. unfold filled. rewrite aget_app_l by (rewrite firstn_length_le; lia).
  rewrite (aget_ok 0%N) by (rewrite firstn_length_le; lia). f_equal.
  rewrite <- (firstn_skipn t W) at 2. rewrite app_nth1; [reflexivity|]. rewrite firstn_length_le; lia.
Qed.

Lemma aget_back_filled n t W k : 0 < k -> k <= t -> t <= length W ->
  aget_back (filled n t W) t k = Ok (nth (t - k) W 0%N).
Proof.
  intros H0 H1 H2. unfold aget_back. destruct (Nat.ltb_spec t k); [lia|].
  apply aget_filled; lia.
Qed.

Lemma firstn_S_nth {A} (d : A) n l : n < length l -> firstn (S n) l = firstn n l ++ [nth n l d].
Proof.
  revert l; induction n as [|n IH]; intros [|a l] H; cbn in *; try lia; [reflexivity|].
  rewrite <- IH by lia. reflexivity.
Qed.

Lemma aset_filled n t W v : t < n -> length W = n -> v = nth t W 0%N ->
  aset (filled n t W) t v = Ok (filled n (S t) W).
Proof.
  intros H1 H2 ->. unfold filled.
  assert (length (firstn t W) = t) as E by (apply firstn_length_le; lia).
  replace t with (length (firstn t W) + 0) at 3 by lia.
  rewrite aset_app_r by (rewrite repeat_length; lia). f_equal.
  rewrite (firstn_S_nth 0%N) by lia. rewrite <- app_assoc. f_equal.
  replace (n - t) with (S (n - S t)) by lia. reflexivity.
Qed.

(** ** rotating registers *)

(** Register j of n holds component (j + t) mod n of the (unrotated) state. *)
Definition rotate {A} (k : nat) (l : list A) : list A := skipn k l ++ firstn k l.

Lemma foldM_map {A B S} (f : B -> S -> res S) (g : A -> B) l s :
  foldM f (map g l) s = foldM (fun a => f (g a)) l s.
Proof. revert s; induction l as [|a l IH]; intros s; cbn; [reflexivity|]. apply bind_ext; intros; apply IH. Qed.

Lemma foldM_seq {S} (f : nat -> S -> res S) k n s : foldM f (seq k n) s = for_ k n f s.
Proof.
  revert k s; induction n as [|n IH]; intros k s; cbn; [reflexivity|]. apply bind_ext; intros; apply IH.
Qed.

Lemma fold_left_seq_S {A} (f : A -> nat -> A) n a :
  fold_left f (seq 0 (S n)) a = f (fold_left f (seq 0 n) a) n.
Proof. rewrite seq_S, fold_left_app. reflexivity. Qed.

Lemma mod5_cases t : t mod 5 = 0 \/ t mod 5 = 1 \/ t mod 5 = 2 \/ t mod 5 = 3 \/ t mod 5 = 4.
Proof. pose proof (Nat.mod_upper_bound t 5 ltac:(lia)). lia. Qed.

Lemma mod4_cases t : t mod 4 = 0 \/ t mod 4 = 1 \/ t mod 4 = 2 \/ t mod 4 = 3.
Proof. pose proof (Nat.mod_upper_bound t 4 ltac:(lia)). lia. Qed.

Lemma mod8_cases t : t mod 8 = 0 \/ t mod 8 = 1 \/ t mod 8 = 2 \/ t mod 8 = 3 \/
  t mod 8 = 4 \/ t mod 8 = 5 \/ t mod 8 = 6 \/ t mod 8 = 7.
Proof. pose proof (Nat.mod_upper_bound t 8 ltac:(lia)). lia. Qed.

Lemma mod3_cases t : t mod 3 = 0 \/ t mod 3 = 1 \/ t mod 3 = 2.
Proof. pose proof (Nat.mod_upper_bound t 3 ltac:(lia)). lia. Qed.

Lemma mod_succ t n : 0 < n -> S t mod n = if S (t mod n) =? n then 0 else S (t mod n).
Proof.
  intros H. pose proof (Nat.mod_upper_bound t n ltac:(lia)).
  replace (S t) with (1 + t) by lia. rewrite <- Nat.add_mod_idemp_r by lia.
  destruct (Nat.eqb_spec (S (t mod n)) n) as [E|E].
  - replace (1 + t mod n) with n by lia. apply Nat.mod_same; lia.
  - rewrite Nat.mod_small by lia. lia.
Qed.

Lemma Forall_nth_bnd w l i : Forall (bnd w) l -> bnd w (nth i l 0%N).
Proof.
  intros H. destruct (Nat.lt_ge_cases i (length l)) as [Hi|Hi].
  - rewrite Forall_forall in H. apply H, nth_In, Hi.
  - rewrite nth_overflow by exact Hi. apply bnd_0.
Qed.

Lemma extend_Forall {A} (P : A -> Prop) f n : (forall l, Forall P l -> P (f l)) ->
  forall l, Forall P l -> Forall P (extend f n l).
Proof.
  intros Hf. induction n as [|n IH]; intros l Hl; cbn [extend]; [exact Hl|].
  apply IH, Forall_app; split; [exact Hl|]. constructor; [apply Hf, Hl|constructor].
Qed.

Lemma list_len5 {A} (l : list A) : length l = 5 -> exists a b c d e, l = [a; b; c; d; e].
Proof. do 6 (destruct l as [|? l]; try discriminate). intros _; eauto 10. Qed.

Lemma list_len4 {A} (l : list A) : length l = 4 -> exists a b c d, l = [a; b; c; d].
Proof. do 5 (destruct l as [|? l]; try discriminate). intros _; eauto 10. Qed.

Lemma list_len8 {A} (l : list A) : length l = 8 -> exists a b c d e f g h, l = [a; b; c; d; e; f; g; h].
Proof. do 9 (destruct l as [|? l]; try discriminate). intros _; eauto 12. Qed.

Lemma list_len3 {A} (l : list A) : length l = 3 -> exists a b c, l = [a; b; c].
Proof. do 4 (destruct l as [|? l]; try discriminate). intros _; eauto 12. Qed.

Ltac inv_Forall :=
  repeat match goal with
  | H : Forall _ [] |- _ => clear H
  | H : Forall _ (_ :: _) |- _ => apply Forall_cons_iff in H; destruct H
  end.

Lemma Forall_bndb w l : forallb (fun x => x <? 2 ^ w)%N l = true -> Forall (bnd w) l.
Proof. rewrite forallb_forall, Forall_forall. intros H x Hx. apply N.ltb_lt, H, Hx. Qed.

(** a loop that rewrites each element in place *)
Lemma skipn_cons {A} i (l : list A) x q : skipn i l = x :: q -> skipn (S i) l = q.
Proof.
  revert l; induction i as [|i IH]; intros [|a l] E; try discriminate; [now injection E|].
  cbn [skipn] in E. exact (IH l E).
Qed.

Lemma for_update {A} (d : A) (g : nat -> A -> A) body n st :
  (forall i s, i < n -> length s = n -> body i s = Ok (upd s i (g i (nth i s d)))) -> length st = n ->
  for_ 0 n body st = Ok (map (fun i => g i (nth i st d)) (seq 0 n)).
Proof.
  intros Hb Hs.
  destruct (for_inv (fun i s => s = map (fun i => g i (nth i st d)) (seq 0 i) ++ skipn i st) body n 0 st) as (s & E & Hi).
  - reflexivity.
  - intros i s Hi ->. set (l := map _ (seq 0 i)).
    assert (length l = i) as Hl by (unfold l; now rewrite map_length, seq_length).
    destruct (skipn i st) as [|x q] eqn:Eq.
    { apply (f_equal (@length A)) in Eq. rewrite skipn_length in Eq. cbn in Eq. lia. }
    assert (nth i st d = x) as Hx.
    { rewrite <- (firstn_skipn i st), app_nth2, firstn_length, Eq by (rewrite firstn_length; lia).
      now replace (i - Nat.min i (length st)) with 0 by lia. }
    assert (length (x :: q) = n - i) as Hq by (rewrite <- Eq, skipn_length; lia).
    rewrite Hb by (try rewrite app_length; lia). eexists. split; [reflexivity|].
    rewrite app_nth2, Hl, Nat.sub_diag by lia. cbn [nth].
    rewrite <- Hl at 1. replace (length l) with (length l + 0) by lia. rewrite upd_app_r. cbn [upd].
    rewrite seq_S, map_app. cbn [map]. rewrite Nat.add_0_l, Hx, <- app_assoc. cbn [app].
    now rewrite (skipn_cons i st x q Eq).
  - cbn [Nat.add] in *. rewrite E, Hi, <- Hs, skipn_all, app_nil_r. reflexivity.
Qed.

Lemma rotate_length {A} k (l : list A) : length (rotate k l) = length l.
Proof. unfold rotate. rewrite app_length, Nat.add_comm, <- app_length, firstn_skipn. reflexivity. Qed.

Lemma foldM_flat_map {A C St} (f : C -> St -> res St) (g : A -> list C) l s :
  foldM f (flat_map g l) s = foldM (fun a => foldM f (g a)) l s.
Proof.
  revert s; induction l as [|a l IH]; intros s; [reflexivity|]. cbn [flat_map foldM].
  rewrite foldM_app. apply bind_ext; intros; apply IH.
Qed.

(** ** register rotations keep words bounded *)
Lemma bnd_ROTL w n x : (n <= w)%N -> bnd w x -> bnd w (ROTL w n x).
Proof. intros Hn Hx. rewrite <- rotl_spec by assumption. apply bnd_rotl, Hx. Qed.
Lemma bnd_back w l i : Forall (bnd w) l -> bnd w (back l i).
Proof. intros H. apply Forall_nth_bnd, H. Qed.

Lemma aget_mid {A} (x y : list A) a i : length x = i -> aget (x ++ a :: y) i = Ok a.
Proof. intros <-. unfold aget. rewrite nth_error_app2, Nat.sub_diag by lia. reflexivity. Qed.
Lemma aset_mid {A} (x y : list A) a b i : length x = i -> aset (x ++ a :: y) i b = Ok (x ++ b :: y).
Proof.
  intros <-. replace (length x) with (length x + 0) by lia. rewrite aset_app_r by (cbn; lia). reflexivity.
Qed.
Lemma list_as_nth {A} (d : A) l n : length l = n -> l = map (fun i => nth i l d) (seq 0 n).
Proof.
  intros <-. induction l as [|a l IH]; [reflexivity|].
  cbn [length seq map nth]. rewrite <- seq_shift, map_map. f_equal. exact IH.
Qed.
Lemma last_cons {A} (d a : A) l : last (a :: l) d = last l a.
Proof.
  revert a d; induction l as [|b l IH]; intros a d; [reflexivity|].
  change (last (a :: b :: l) d) with (last (b :: l) d). rewrite !IH. reflexivity.
Qed.
Lemma fold_proj {A B C} (p : A -> C) (f : A -> B -> A) (g : C -> B -> C) :
  (forall s b, p (f s b) = g (p s) b) -> forall l s, p (fold_left f l s) = fold_left g l (p s).
Proof.
  intros H. induction l as [|b l IH]; intros s; [reflexivity|]. cbn [fold_left]. now rewrite IH, H.
Qed.

Lemma nth_map_seq {A} (f : nat -> A) n i d : i < n -> nth i (map f (seq 0 n)) d = f i.
Proof.
  intros H. rewrite (nth_indep _ d (f 0)) by (rewrite map_length, seq_length; exact H).
  rewrite map_nth, seq_nth by exact H. reflexivity.
Qed.

Lemma nth_firstn_lt {A} n (l : list A) i d : i < n -> nth i (firstn n l) d = nth i l d.
Proof.
  revert l i; induction n as [|n IH]; intros l i H; [lia|]. destruct l; [reflexivity|].
  destruct i; [reflexivity|]. cbn. apply IH. lia.
Qed.
