(** String literals as arguments of addData. *)
From Coq Require Import List NArith Arith Bool Lia.
From Verif.Base Require Import Res.
From Verif.Spec Require Import Words Memory.
From Verif.Model Require Import Api Library Overloads.
From Verif.Proof Require Overloads.
Import ListNotations.
Local Open Scope N_scope.

Lemma singles (l : list N) : concat (map (fun b => [b]) l) = l.
Proof. induction l as [|b l IH]; [reflexivity|]. cbn [map concat app]. now rewrite IH. Qed.

Theorem literal_calls (a : alg) dbg mem p s o : literal_at mem p s -> N.of_nat (length s) < 2 ^ 64 - 1 ->
  add_call _ (add_span a dbg) mem (Array 1 p (N.of_nat (length s) + 1)) o = c_add (class a dbg) (s ++ [0]) o /\
  add_call _ (add_span a dbg) mem (Pointer p (N.of_nat (length s))) o = c_add (class a dbg) s o.
Proof.
  intros H Hl.
  assert (forall c d, designates mem c d -> add_call _ (add_span a dbg) mem c o = c_add (class a dbg) d o) as G.
  { intros c d Hd. pose proof (Overloads.class_calls a dbg mem [c] [d] o ltac:(constructor; [exact Hd|constructor])) as E.
    cbn [foldM] in E. destruct (add_call _ _ _ _ _), (c_add _ _ _); cbn [bind] in E; congruence. }
  split; apply G.
  - rewrite <- (singles (s ++ [0])).
    replace (N.of_nat (length s) + 1) with (N.of_nat (length (map (fun b => [b]) (s ++ [0])))) by (rewrite map_length, app_length; cbn [length]; lia).
    apply (at_array mem 1 p).
    + intros i e E. rewrite nth_error_map in E. destruct (nth_error (s ++ [0]) i) as [b|] eqn:Eb; [|discriminate E].
      injection E as <-. split; [reflexivity|]. intros [|j] b' E; [|destruct j; discriminate E]. injection E as <-.
      rewrite Nat.mul_1_r, N.add_0_r. now apply H.
    + rewrite map_length, app_length. cbn [length]. lia.
  - apply at_pointer; [|lia]. intros i b E. apply H. rewrite nth_error_app1; [exact E|]. apply nth_error_Some. now rewrite E.
Qed.

(** a memory with these bytes at [p] and nothing else *)
Definition placed (p : N) (d : list N) : memory := fun x => if p <=? x then nth_error d (N.to_nat (x - p)) else None.
Lemma placed_at p d : object_at (placed p d) p d.
Proof.
  intros i b E. unfold placed. assert (p <=? p + N.of_nat i = true) as -> by (apply N.leb_le; lia).
  replace (N.to_nat (p + N.of_nat i - p)) with i by lia. exact E.
Qed.
