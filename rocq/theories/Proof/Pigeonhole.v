(** More messages than digests: two messages have the same digest. *)
From Coq Require Import List NArith Arith Bool Lia FinFun.
From Verif.Spec Require Import Words.
Import ListNotations.

Section Pairs.
  Context {A B : Type}.
  Variable eqb : forall x y : B, {x = y} + {x <> y}.
  Variable f : A -> B.

  Lemma repeated l : NoDup (map f l) \/ exists l1 x l2 y l3, l = l1 ++ x :: l2 ++ y :: l3 /\ f x = f y.
  Proof using eqb.
    induction l as [|a l IH]; [left; constructor|]. destruct IH as [IH|(l1 & x & l2 & y & l3 & -> & E)].
    - destruct (in_dec eqb (f a) (map f l)) as [H|H]; [|left; cbn [map]; now constructor].
      right. apply in_map_iff in H. destruct H as (y & Ey & Hy). apply in_split in Hy. destruct Hy as (l2 & l3 & ->).
      exists [], a, l2, y, l3. auto.
    - right. exists (a :: l1), x, l2, y, l3. auto.
  Qed.

  Lemma pigeonhole l r : NoDup l -> incl (map f l) r -> length r < length l -> exists x y, In x l /\ In y l /\ x <> y /\ f x = f y.
  Proof using eqb.
    intros Hl Hi Hlen. destruct (repeated l) as [H|(l1 & x & l2 & y & l3 & -> & E)].
    - pose proof (NoDup_incl_length H Hi) as L. rewrite map_length in L. lia.
    - exists x, y. split; [apply in_or_app; right; left; reflexivity|]. split; [apply in_or_app; right; right; apply in_or_app; right; left; reflexivity|].
      split; [|exact E]. intros ->. apply NoDup_remove_2 in Hl. apply Hl. apply in_or_app. right. apply in_or_app. right. left. reflexivity.
  Qed.
End Pairs.

(** all strings of n bytes *)
Definition all_bytes : list N := map N.of_nat (seq 0 256).
Fixpoint strings (n : nat) : list (list N) :=
  match n with
  | O => [[]]
  | S k => flat_map (fun b => map (cons b) (strings k)) all_bytes
  end.

Lemma in_all_bytes b : (b < 256)%N -> In b all_bytes.
Proof. intros H. unfold all_bytes. apply in_map_iff. exists (N.to_nat b). rewrite N2Nat.id. split; [reflexivity|]. apply in_seq. lia. Qed.
Lemma all_bytes_in b : In b all_bytes -> (b < 256)%N.
Proof. intros H. apply in_map_iff in H. destruct H as (x & <- & Hx). apply in_seq in Hx. lia. Qed.
Lemma all_bytes_nodup : NoDup all_bytes.
Proof. apply Injective_map_NoDup; [intros x y E; lia|apply seq_NoDup]. Qed.

Lemma in_strings n : forall s, length s = n -> bytes_ok s -> In s (strings n).
Proof.
  induction n as [|n IH]; intros s Hl Hs.
  - apply length_zero_iff_nil in Hl. subst. left. reflexivity.
  - destruct s as [|b s]; [discriminate|]. apply Forall_cons_iff in Hs. destruct Hs as [Hb Hs]. cbn [strings]. apply in_flat_map.
    exists b. split; [now apply in_all_bytes|]. apply in_map, IH; [now injection Hl|exact Hs].
Qed.
Lemma strings_in n : forall s, In s (strings n) -> length s = n /\ bytes_ok s.
Proof.
  induction n as [|n IH]; intros s H.
  - destruct H as [<-|[]]. split; [reflexivity|constructor].
  - cbn [strings] in H. apply in_flat_map in H. destruct H as (b & Hb & H). apply in_map_iff in H. destruct H as (t & <- & Ht).
    destruct (IH t Ht) as [L Ok]. split; [cbn [length]; now rewrite L|]. constructor; [now apply all_bytes_in|exact Ok].
Qed.
Lemma flat_prefix_length l n : length (flat_map (fun b : N => map (cons b) (strings n)) l) = (length l * length (strings n))%nat.
Proof. induction l as [|b l IH]; [reflexivity|]. cbn [flat_map length Nat.mul]. now rewrite app_length, map_length, IH. Qed.
Lemma strings_length n : length (strings n) = (length all_bytes ^ n)%nat.
Proof. induction n as [|n IH]; [reflexivity|]. cbn [strings Nat.pow]. now rewrite flat_prefix_length, IH. Qed.
Lemma strings_nodup n : NoDup (strings n).
Proof.
  induction n as [|n IH]; [constructor; [intros []|constructor]|]. cbn [strings]. generalize all_bytes_nodup. generalize all_bytes.
  intros l Hl. induction Hl as [|b l Hb Hl IHl]; [constructor|]. cbn [flat_map].
  assert (NoDup (map (cons b) (strings n))) as H1 by (apply Injective_map_NoDup; [intros x y E; congruence|exact IH]).
  assert (forall s, In s (map (cons b) (strings n)) -> ~ In s (flat_map (fun b => map (cons b) (strings n)) l)) as H2.
  { intros s Hs Hf. apply in_map_iff in Hs. destruct Hs as (t & <- & _). apply in_flat_map in Hf. destruct Hf as (c & Hc & Hf).
    apply in_map_iff in Hf. destruct Hf as (u & E & _). injection E as -> _. contradiction. }
  clear IH. induction H1 as [|s w Hs Hw IHw]; [exact IHl|]. cbn [app]. constructor.
  - intros H. apply in_app_or in H. destruct H as [H|H]; [contradiction|]. apply (H2 s); [left; reflexivity|exact H].
  - apply IHw. intros t Ht. apply H2. right. exact Ht.
Qed.

(** a function from strings of n bytes to shorter strings has a collision *)
Theorem collision n d (f : list N -> list N) : (d < n)%nat ->
  (forall s, length s = n -> bytes_ok s -> length (f s) = d /\ bytes_ok (f s)) ->
  exists s t, length s = n /\ bytes_ok s /\ length t = n /\ bytes_ok t /\ s <> t /\ f s = f t.
Proof.
  intros Hd Hf. destruct (pigeonhole (list_eq_dec N.eq_dec) f (strings n) (strings d)) as (s & t & Hs & Ht & Hne & E).
  - apply strings_nodup.
  - intros w Hw. apply in_map_iff in Hw. destruct Hw as (s & <- & Hs). destruct (strings_in n s Hs) as [L1 L2].
    destruct (Hf s L1 L2) as [F1 F2]. now apply in_strings.
  - rewrite !strings_length. apply Nat.pow_lt_mono_r; [|exact Hd]. unfold all_bytes. rewrite map_length, seq_length.
    apply Nat.ltb_lt. reflexivity.
  - exists s, t. destruct (strings_in n s Hs), (strings_in n t Ht). auto 10.
Qed.
