(** Padding is injective, and collisions of hashes are collisions of compression functions. *)
From Coq Require Import List NArith Arith Bool Lia.
From Verif.Base Require Import Res CWord.
From Verif.Spec Require Import Words Client Merkle Chaining.
From Verif.Model Require Import Buffer Stream Api Library Chaining.
From Verif.Proof Require Import Words Streaming Blocks Api MD MD128.
Import ListNotations.

(** ** iterating a function *)

Section Iterate.
  Context {I H : Type} (f : I -> H -> res H) (iv : H) (cf : H -> I -> H) (inv : H -> Prop) (ok : I -> Prop).
  Hypothesis Hiv : inv iv.
  Hypothesis Hf : forall b h, inv h -> ok b -> f b h = Ok (cf h b) /\ inv (cf h b).
  Hypothesis Hdec : forall x y : H, {x = y} + {x <> y}.
  Hypothesis Idec : forall x y : I, {x = y} + {x <> y}.

  Lemma iter_ok l : Forall ok l -> forall h, inv h -> foldM f l h = Ok (fold_left cf l h) /\ inv (fold_left cf l h).
  Proof.
    induction 1 as [|b l Hb Hl IH]; intros h Hh; cbn [foldM fold_left]; [auto|].
    destruct (Hf b h Hh Hb) as [-> Hi]. rewrite bind_ok. apply IH, Hi.
  Qed.

  Lemma visit p b q : Forall ok p -> visits f iv (p ++ b :: q) (fold_left cf p iv) b.
  Proof.
    intros Hp. exists (length p). split.
    - rewrite nth_error_app2 by lia. now rewrite Nat.sub_diag.
    - rewrite firstn_app, Nat.sub_diag, firstn_all, app_nil_r. apply iter_ok; assumption.
  Qed.

  Lemma last_collision p1 b1 q1 p2 b2 q2 : Forall ok (p1 ++ b1 :: q1) -> Forall ok (p2 ++ b2 :: q2) ->
    (fold_left cf p1 iv, b1) <> (fold_left cf p2 iv, b2) -> cf (fold_left cf p1 iv) b1 = cf (fold_left cf p2 iv) b2 ->
    collision f iv (p1 ++ b1 :: q1) (p2 ++ b2 :: q2).
  Proof.
    intros H1 H2 Hne He. apply Forall_app in H1 as [H1 G1]. apply Forall_app in H2 as [H2 G2].
    inversion_clear G1. inversion_clear G2.
    exists (fold_left cf p1 iv), b1, (fold_left cf p2 iv), b2, (cf (fold_left cf p1 iv) b1).
    split; [apply visit, H1|]. split; [apply visit, H2|]. split; [exact Hne|].
    split; [apply Hf; [apply iter_ok|]; assumption|]. rewrite He. apply Hf; [apply iter_ok|]; assumption.
  Qed.

  Lemma collision_tail l1 l2 : Forall ok l1 -> Forall ok l2 -> forall q1 q2, Forall ok q1 -> Forall ok q2 ->
    length l1 = length l2 -> l1 <> l2 ->
    fold_left cf l1 iv = fold_left cf l2 iv -> collision f iv (l1 ++ q1) (l2 ++ q2).
  Proof.
    intros H1. revert l2. induction l1 as [|b1 p1 IH] using rev_ind; intros l2 H2 q1 q2 Hq1 Hq2 Hl Hne He.
    - destruct l2; [congruence|discriminate].
    - destruct l2 as [|b2 p2 _] using rev_ind; [rewrite app_length in Hl; cbn in Hl; lia|].
      rewrite !app_length in Hl. cbn [length] in Hl. rewrite !fold_left_app in He. cbn [fold_left] in He.
      rewrite <- !app_assoc. cbn [app].
      apply Forall_app in H1 as [H1 G1]. apply Forall_app in H2 as [H2 G2].
      inversion_clear G1. inversion_clear G2.
      destruct (Hdec (fold_left cf p1 iv) (fold_left cf p2 iv)) as [Eh|Nh];
        [destruct (Idec b1 b2) as [Eb|Nb]|].
      + apply IH; auto; [lia|]. intros E. apply Hne. congruence.
      + apply last_collision; auto; [apply Forall_app; auto..|]. congruence.
      + apply last_collision; auto; [apply Forall_app; auto..|]. congruence.
  Qed.

  Theorem iter_collision l1 l2 : Forall ok l1 -> Forall ok l2 -> length l1 = length l2 -> l1 <> l2 ->
    fold_left cf l1 iv = fold_left cf l2 iv -> collision f iv l1 l2.
  Proof.
    intros H1 H2 Hl Hne He. rewrite <- (app_nil_r l1), <- (app_nil_r l2). apply collision_tail; auto.
  Qed.

  (** inputs that differ at the end *)
  Theorem end_collision p1 b1 p2 b2 : Forall ok (p1 ++ [b1]) -> Forall ok (p2 ++ [b2]) -> b1 <> b2 ->
    fold_left cf (p1 ++ [b1]) iv = fold_left cf (p2 ++ [b2]) iv -> collision f iv (p1 ++ [b1]) (p2 ++ [b2]).
  Proof.
    intros H1 H2 Hne He. rewrite !fold_left_app in He. cbn [fold_left] in He. apply last_collision; auto. congruence.
  Qed.

  (** in general: a collision, or a way back to the initial value *)
  Lemma any_tail l1 : Forall ok l1 -> forall l2 q1 q2, Forall ok l2 -> Forall ok q1 -> Forall ok q2 ->
    l1 <> l2 -> fold_left cf l1 iv = fold_left cf l2 iv ->
    collision f iv (l1 ++ q1) (l2 ++ q2) \/ returns f iv (l1 ++ q1) \/ returns f iv (l2 ++ q2).
  Proof.
    assert (forall l q, Forall ok l -> l <> [] -> fold_left cf l iv = iv -> returns f iv (l ++ q)) as R.
    { intros l q Hl Hne E. exists (length l). split; [rewrite app_length; destruct l; [congruence|cbn; lia]|].
      rewrite firstn_app, Nat.sub_diag, firstn_all, app_nil_r. rewrite <- E at 2. apply iter_ok; assumption. }
    intros H1. induction l1 as [|b1 p1 IH] using rev_ind; intros l2 q1 q2 H2 Hq1 Hq2 Hne He.
    - right. right. apply R; [exact H2|congruence|]. symmetry. exact He.
    - destruct l2 as [|b2 p2 _] using rev_ind; [right; left; apply R; [exact H1|congruence|exact He]|].
      rewrite !fold_left_app in He. cbn [fold_left] in He. rewrite <- !app_assoc. cbn [app].
      apply Forall_app in H1 as [H1 G1]. apply Forall_app in H2 as [H2 G2].
      inversion_clear G1. inversion_clear G2.
      destruct (Hdec (fold_left cf p1 iv) (fold_left cf p2 iv)) as [Eh|Nh];
        [destruct (Idec b1 b2) as [Eb|Nb]|].
      + apply IH; auto. intros E. apply Hne. congruence.
      + left. apply last_collision; auto; [apply Forall_app; auto..|]. congruence.
      + left. apply last_collision; auto; [apply Forall_app; auto..|]. congruence.
  Qed.
  Theorem any_collision l1 l2 : Forall ok l1 -> Forall ok l2 -> l1 <> l2 -> fold_left cf l1 iv = fold_left cf l2 iv ->
    collision f iv l1 l2 \/ returns f iv l1 \/ returns f iv l2.
  Proof.
    intros H1 H2 Hne He. pose proof (any_tail l1 H1 l2 [] [] H2 (Forall_nil _) (Forall_nil _) Hne He) as G.
    now rewrite !app_nil_r in G.
  Qed.
End Iterate.

(** ** Merkle-Damgard padding *)

Lemma app_len_inj {A} (x y u v : list A) : length x = length y -> x ++ u = y ++ v -> x = y /\ u = v.
Proof.
  revert y; induction x as [|a x IH]; intros [|b y] Hl E; cbn in *; try discriminate; [auto|].
  injection E as -> E. injection Hl as Hl. destruct (IH y Hl E) as [-> ->]. auto.
Qed.
Lemma app_end_inj {A} (x y u v : list A) : length u = length v -> x ++ u = y ++ v -> x = y /\ u = v.
Proof.
  intros Hl E. apply app_len_inj; [|exact E]. apply (f_equal (@length A)) in E. rewrite !app_length in E. lia.
Qed.

Lemma concat_pieces n (l : list N) : 0 < n -> aligned n l -> concat (pieces n l) = l.
Proof.
  intros Hn Ha. revert l Ha. apply (aligned_ind n (fun l => concat (pieces n l) = l)); [exact Hn|reflexivity|].
  intros b t Hb Ht IH. rewrite pieces_cons by assumption. cbn [concat]. now rewrite IH.
Qed.

Lemma last_piece B x y : 0 < B -> length y = B -> aligned B x -> pieces B (x ++ y) = pieces B x ++ [y].
Proof. intros HB Hy Hx. rewrite pieces_app by assumption. now rewrite (pieces_one B y). Qed.

(** the message, something that depends on its length only, the length field *)
Section Strengthened.
  Variables (B r : nat) (enc : N -> list N) (W : N) (P : list N -> list N) (mid : nat -> list N).
  Hypothesis HB : 0 < B.
  Hypothesis Hr : r <= B.
  Hypothesis Henc_len : forall x, length (enc x) = r.
  Hypothesis Henc_inj : forall x y, (x < 2 ^ W)%N -> (y < 2 ^ W)%N -> enc x = enc y -> x = y.
  Hypothesis Hshape : forall m, P m = (m ++ mid (length m)) ++ enc (8 * N.of_nat (length m))%N.
  Hypothesis Hmid : forall n, mid n <> [].
  Hypothesis Halign : forall m, aligned B (P m).
  Let fits (m : list N) : Prop := (8 * N.of_nat (length m) < 2 ^ W)%N.

  Lemma pad_inj m1 m2 : fits m1 -> fits m2 -> P m1 = P m2 -> m1 = m2.
  Proof.
    intros F1 F2 E. rewrite !Hshape in E. apply app_end_inj in E as [E1 E2]; [|now rewrite !Henc_len].
    apply Henc_inj in E2; [|assumption..]. apply app_len_inj in E1; [tauto|lia].
  Qed.

  (** the last block ends with the length field *)
  Lemma pad_last m : exists p b, pieces B (P m) = p ++ [b ++ enc (8 * N.of_nat (length m))%N] /\ length b = B - r.
  Proof.
    pose proof (Halign m) as Ha. rewrite Hshape in *.
    assert (0 < length (m ++ mid (length m))) as Hx.
    { rewrite app_length. pose proof (Hmid (length m)). destruct (mid (length m)); [congruence|cbn; lia]. }
    set (x := m ++ _) in *. set (e := enc _) in *. assert (length e = r) as He by apply Henc_len.
    clearbody x e. unfold aligned in Ha. rewrite app_length, He in Ha.
    assert (B <= length x + r) as Hge.
    { apply Nat.mod_divides in Ha as [c Hc]; [|lia]. destruct c; nia. }
    exists (pieces B (firstn (length x + r - B) x)), (skipn (length x + r - B) x). split; [|rewrite skipn_length; lia].
    rewrite <- last_piece; [|lia|rewrite app_length, skipn_length; lia|].
    - rewrite app_assoc, firstn_skipn. reflexivity.
    - unfold aligned. rewrite firstn_length_le by lia.
      replace (length x + r) with (length x + r - B + 1 * B) in Ha by lia. rewrite Nat.mod_add in Ha by lia. exact Ha.
  Qed.

  Lemma pad_len_eq m1 m2 : length m1 = length m2 -> length (P m1) = length (P m2).
  Proof. intros E. rewrite !Hshape, !app_length, !Henc_len, E. reflexivity. Qed.

  Lemma pieces_inj m1 m2 : fits m1 -> fits m2 -> pieces B (P m1) = pieces B (P m2) -> m1 = m2.
  Proof.
    intros F1 F2 E. apply (pad_inj m1 m2 F1 F2).
    rewrite <- (concat_pieces B (P m1)), <- (concat_pieces B (P m2)) by auto. now rewrite E.
  Qed.

  (** the compression function may take something else besides the block *)
  Section Hash.
    Context {H J : Type} (f : list N * J -> H -> res H) (iv : H) (cf : H -> list N * J -> H) (inv : H -> Prop).
    Variable tags : nat -> nat -> list J.
    Hypothesis Htags : forall n k, length (tags n k) = k.
    Hypothesis Hbytes : forall m, bytes_ok m -> bytes_ok (P m).
    Hypothesis Hiv : inv iv.
    Hypothesis Hf : forall b h, inv h -> length (fst b) = B /\ bytes_ok (fst b) -> f b h = Ok (cf h b) /\ inv (cf h b).
    Hypothesis Hdec : forall x y : H, {x = y} + {x <> y}.
    Hypothesis Jdec : forall x y : J, {x = y} + {x <> y}.
    Let good (b : list N * J) : Prop := length (fst b) = B /\ bytes_ok (fst b).
    Definition ins (m : list N) : list (list N * J) :=
      combine (pieces B (P m)) (tags (length m) (length (pieces B (P m)))).

    Lemma fst_ins m : map fst (ins m) = pieces B (P m).
    Proof.
      unfold ins. set (l := pieces B (P m)). clearbody l.
      assert (forall (l : list (list N)) (t : list J), length t = length l -> map fst (combine l t) = l) as G.
      { induction l0 as [|x l0 IH]; intros [|y t] Hl; cbn in *; try discriminate; [reflexivity|]. f_equal. apply IH. lia. }
      apply G, Htags.
    Qed.
    Lemma good_ins m : bytes_ok m -> Forall good (ins m).
    Proof.
      intros Hm. apply (Forall_map fst (fun b => length b = B /\ bytes_ok b)). rewrite fst_ins.
      apply Forall_and; [apply pieces_all|apply pieces_bytes]; auto.
    Qed.
    Lemma ins_inj m1 m2 : fits m1 -> fits m2 -> ins m1 = ins m2 -> m1 = m2.
    Proof. intros F1 F2 E. apply (pieces_inj m1 m2 F1 F2). now rewrite <- !fst_ins, E. Qed.

    Lemma ins_last m : exists p b t, ins m = p ++ [(b ++ enc (8 * N.of_nat (length m))%N, t)] /\ length b = B - r.
    Proof.
      destruct (pad_last m) as (p & b & E & Hl). unfold ins. rewrite E, app_length. cbn [length].
      pose proof (Htags (length m) (length p + 1)) as Ht. set (t := tags _ _) in *. clearbody t.
      destruct t as [|s t _] using rev_ind; [cbn in Ht; lia|]. rewrite app_length in Ht. cbn [length] in Ht.
      exists (combine p t), b, s. split; [|exact Hl].
      assert (length p = length t) as Hpt by lia. clear -Hpt. revert t Hpt. induction p as [|x p IH]; intros [|y t] Hl; cbn in *; try discriminate; [reflexivity|].
      f_equal. apply IH. lia.
    Qed.

    Lemma ins_fold m : bytes_ok m -> foldM f (ins m) iv = Ok (fold_left cf (ins m) iv).
    Proof. intros Hm. apply (iter_ok f cf inv good Hf); auto using good_ins. Qed.

    Theorem ins_collision m1 m2 : bytes_ok m1 -> bytes_ok m2 -> fits m1 -> fits m2 -> m1 <> m2 ->
      fold_left cf (ins m1) iv = fold_left cf (ins m2) iv -> collision f iv (ins m1) (ins m2).
    Proof.
      intros B1 B2 F1 F2 Hne E.
      pose proof (good_ins m1 B1) as G1. pose proof (good_ins m2 B2) as G2.
      assert (forall x y : list N * J, {x = y} + {x <> y}) as Idec by (decide equality; apply (list_eq_dec N.eq_dec)).
      destruct (Nat.eq_dec (length m1) (length m2)) as [El|Nl].
      - apply (iter_collision f iv cf inv good Hiv Hf Hdec Idec); auto.
        + rewrite <- (map_length fst (ins m1)), <- (map_length fst (ins m2)), !fst_ins, !pieces_length by auto.
          f_equal. apply pad_len_eq, El.
        + intros Ep. apply Hne, (ins_inj m1 m2 F1 F2 Ep).
      - destruct (ins_last m1) as (p1 & b1 & t1 & P1 & L1). destruct (ins_last m2) as (p2 & b2 & t2 & P2 & L2).
        rewrite P1, P2 in *. refine (end_collision f iv cf inv good Hiv Hf Hdec Idec _ _ _ _ G1 G2 _ E).
        intros Eb. apply (f_equal fst) in Eb. cbn [fst] in Eb. apply app_len_inj in Eb as [_ Ee]; [|lia]. apply Henc_inj in Ee; [lia|assumption..].
    Qed.
  End Hash.

  Section Plain.
    Context {H : Type} (compress : list N -> H -> res H) (iv : H) (cf : H -> list N -> H) (inv : H -> Prop).
    Hypothesis Hbytes : forall m, bytes_ok m -> bytes_ok (P m).
    Hypothesis Hiv : inv iv.
    Hypothesis Hc : forall blk tl h, inv h -> length blk = B -> bytes_ok blk ->
      compress (blk ++ tl) h = Ok (cf h blk) /\ inv (cf h blk).
    Hypothesis Hdec : forall x y : H, {x = y} + {x <> y}.
    Let good (b : list N) : Prop := length b = B /\ bytes_ok b.

    Lemma good_pad m : bytes_ok m -> Forall good (pieces B (P m)).
    Proof. intros Hm. apply Forall_and; [apply pieces_all|apply pieces_bytes]; auto. Qed.
    Lemma Hf b h : inv h -> good b -> compress b h = Ok (cf h b) /\ inv (cf h b).
    Proof. intros Hh [Hl Hb]. rewrite <- (app_nil_r b) at 1. now apply Hc. Qed.

    Lemma blocks_fold m : bytes_ok m -> foldM compress (pieces B (P m)) iv = Ok (chain B cf iv (P m)).
    Proof. intros Hm. apply (iter_ok compress cf inv good Hf); auto using good_pad. Qed.

    Theorem md_collision m1 m2 : bytes_ok m1 -> bytes_ok m2 -> fits m1 -> fits m2 -> m1 <> m2 ->
      chain B cf iv (P m1) = chain B cf iv (P m2) -> collision compress iv (pieces B (P m1)) (pieces B (P m2)).
    Proof.
      intros B1 B2 F1 F2 Hne E. unfold chain in E.
      pose proof (good_pad m1 B1) as G1. pose proof (good_pad m2 B2) as G2.
      destruct (Nat.eq_dec (length m1) (length m2)) as [El|Nl].
      - apply (iter_collision compress iv cf inv good Hiv Hf Hdec (list_eq_dec N.eq_dec)); auto.
        + rewrite !pieces_length by auto. f_equal. apply pad_len_eq, El.
        + intros Ep. apply Hne, (pieces_inj m1 m2 F1 F2 Ep).
      - destruct (pad_last m1) as (p1 & b1 & P1 & L1). destruct (pad_last m2) as (p2 & b2 & P2 & L2).
        rewrite P1, P2 in *. refine (end_collision compress iv cf inv good Hiv Hf Hdec (list_eq_dec N.eq_dec) _ _ _ _ G1 G2 _ E).
        intros Eb. apply app_len_inj in Eb as [_ Ee]; [|lia]. apply Henc_inj in Ee; [lia|assumption..].
    Qed.
  End Plain.
End Strengthened.

Lemma pad_shape B r mk enc m :
  pad B r mk enc m = (m ++ [mk] ++ repeat 0%N (zeros B r (length m))) ++ enc (8 * N.of_nat (length m))%N.
Proof. unfold pad. now rewrite <- !app_assoc. Qed.

(** ** encodings of the length *)

Lemma le_bytes_inj n x y : (x < 2 ^ (8 * N.of_nat n))%N -> (y < 2 ^ (8 * N.of_nat n))%N -> le_bytes n x = le_bytes n y -> x = y.
Proof.
  intros Hx Hy E. apply (f_equal le_value) in E. rewrite !le_value_bytes in E.
  rewrite N.pow_mul_r in Hx, Hy. change (2 ^ 8)%N with 256%N in *. now rewrite !N.mod_small in E.
Qed.
Lemma be_bytes_inj n x y : (x < 2 ^ (8 * N.of_nat n))%N -> (y < 2 ^ (8 * N.of_nat n))%N -> be_bytes n x = be_bytes n y -> x = y.
Proof. intros Hx Hy E. apply (le_bytes_inj n); auto. unfold be_bytes in E. apply (f_equal (@rev N)) in E. now rewrite !rev_involutive in E. Qed.
