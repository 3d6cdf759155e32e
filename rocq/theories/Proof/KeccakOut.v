(** Output lengths of the sponge: exactly d bits, and a shorter output is a prefix of a longer one. *)
From Coq Require Import List NArith Arith Bool Lia.
From Verif.Spec Require Import Words Keccak.
From Verif.Proof Require Import Blocks.
From Verif.Proof Require KeccakF.
Import ListNotations.

Lemma keccak_f_length s : length (keccak_f s) = 1600.
Proof.
  unfold keccak_f. change (seq 0 24) with (seq 0 23 ++ [23]). rewrite fold_left_app. apply KeccakF.to_string_length.
Qed.

(** the output, given enough turns *)
Lemma squeeze_length r d : 0 < r <= 1600 -> forall fuel Z S, length S = 1600 -> d <= length Z + (fuel + 1) * r ->
  length (squeeze fuel r d Z S) = d.
Proof.
  intros Hr. induction fuel as [|fuel IH]; intros Z S HS Hd; cbn [squeeze].
  all: assert (length (Z ++ firstn r S) = length Z + r) as L by (rewrite app_length, firstn_length_le by lia; reflexivity).
  all: rewrite L; destruct (Nat.leb_spec d (length Z + r)); [rewrite firstn_length_le by lia; reflexivity|].
  - lia.
  - apply IH; [apply keccak_f_length|]. rewrite L. lia.
Qed.

Lemma squeeze_prefix r a b : 0 < r <= 1600 -> a <= b -> forall f1 f2 Z S, length S = 1600 ->
  a <= length Z + (f1 + 1) * r -> b <= length Z + (f2 + 1) * r ->
  firstn a (squeeze f2 r b Z S) = squeeze f1 r a Z S.
Proof.
  intros Hr Hab. 
  (* the bits already produced stay in front *)
  assert (forall f Z S, length S = 1600 -> b <= length Z + (f + 1) * r -> a <= length Z -> firstn a (squeeze f r b Z S) = firstn a Z) as G.
  { induction f as [|f IH]; intros Z S HS Hb Ha; cbn [squeeze].
    all: assert (length (Z ++ firstn r S) = length Z + r) as L by (rewrite app_length, firstn_length_le by lia; reflexivity).
    all: rewrite L; destruct (Nat.leb_spec b (length Z + r)).
    1,3: rewrite firstn_firstn, Nat.min_l by lia; rewrite firstn_app; replace (a - length Z) with 0 by lia; now rewrite app_nil_r.
    - lia.
    - rewrite IH by (try apply keccak_f_length; lia). rewrite firstn_app. replace (a - length Z) with 0 by lia. now rewrite app_nil_r. }
  induction f1 as [|f1 IH]; intros f2 Z S HS Ha Hb.
  all: assert (length (Z ++ firstn r S) = length Z + r) as L by (rewrite app_length, firstn_length_le by lia; reflexivity).
  - cbn [squeeze]. rewrite L. destruct (Nat.leb_spec a (length Z + r)); [|lia].
    destruct f2 as [|f2]; cbn [squeeze]; rewrite L.
    + destruct (Nat.leb_spec b (length Z + r)); [|lia]. now rewrite firstn_firstn, Nat.min_l by lia.
    + destruct (Nat.leb_spec b (length Z + r)); [now rewrite firstn_firstn, Nat.min_l by lia|].
      apply G; [apply keccak_f_length|lia|lia].
  - cbn [squeeze]. rewrite L. destruct (Nat.leb_spec a (length Z + r)).
    + destruct f2 as [|f2]; cbn [squeeze]; rewrite L.
      * destruct (Nat.leb_spec b (length Z + r)); [|lia]. now rewrite firstn_firstn, Nat.min_l by lia.
      * destruct (Nat.leb_spec b (length Z + r)); [now rewrite firstn_firstn, Nat.min_l by lia|].
        apply G; [apply keccak_f_length|lia|lia].
    + destruct f2 as [|f2]; cbn [squeeze]; rewrite L.
      * lia.
      * destruct (Nat.leb_spec b (length Z + r)); [lia|]. apply IH; [apply keccak_f_length|lia|lia].
Qed.

Lemma absorb_length r P : length (fold_left (fun S Pi => keccak_f (xor_bits S (Pi ++ repeat false (1600 - r)))) P (repeat false 1600)) = 1600.
Proof.
  destruct P as [|p P] using rev_ind; [apply repeat_length|]. rewrite fold_left_app. cbn [fold_left].
  rewrite keccak_f_length. reflexivity.
Qed.

Theorem sponge_length r d M : 0 < r <= 1600 -> length (sponge r d M) = d.
Proof. intros Hr. unfold sponge. apply squeeze_length; [exact Hr|apply absorb_length|]. cbn [length]. nia. Qed.

Theorem sponge_prefix r a b M : 0 < r <= 1600 -> a <= b -> firstn a (sponge r b M) = sponge r a M.
Proof. intros Hr Hab. unfold sponge. apply squeeze_prefix; try assumption; [apply absorb_length|cbn [length]; nia..]. Qed.

(** ** bytes *)
Lemma bytes_of_length n : forall s, length s = 8 * n -> length (bytes_of s) = n.
Proof.
  unfold bytes_of. induction n as [|n IH]; intros s Hs.
  - destruct s; [reflexivity|cbn in Hs; lia].
  - rewrite <- (firstn_skipn 8 s). rewrite pieces_cons by (try rewrite firstn_length_le; lia).
    cbn [map length]. rewrite IH by (rewrite skipn_length; lia). reflexivity.
Qed.

Lemma bytes_of_firstn a : forall s n, length s = 8 * n -> a <= n -> bytes_of (firstn (8 * a) s) = firstn a (bytes_of s).
Proof.
  unfold bytes_of. induction a as [|a IH]; intros s n Hs Ha; [reflexivity|].
  destruct n as [|n]; [lia|]. rewrite <- (firstn_skipn 8 s).
  assert (length (firstn 8 s) = 8) as L by (rewrite firstn_length_le; lia).
  rewrite firstn_app, L, firstn_all2 by lia. replace (8 * S a - 8) with (8 * a) by lia.
  rewrite !(pieces_cons 8 (firstn 8 s)) by (assumption || lia). cbn [map firstn].
  rewrite (IH _ n) by (try rewrite skipn_length; lia). reflexivity.
Qed.

Theorem shake_length r d M : 0 < r <= 1600 -> length (bytes_of (sponge r (8 * d) M)) = d.
Proof.
  intros H. pose proof (sponge_length r (8 * d) M H) as L. generalize dependent (sponge r (8 * d) M).
  intros s L. now apply bytes_of_length.
Qed.

Theorem shake_prefix r a b M : 0 < r <= 1600 -> a <= b ->
  firstn a (bytes_of (sponge r (8 * b) M)) = bytes_of (sponge r (8 * a) M).
Proof.
  intros H Hab. pose proof (sponge_length r (8 * b) M H) as L.
  rewrite <- (sponge_prefix r (8 * a) (8 * b) M H) by lia. generalize dependent (sponge r (8 * b) M).
  intros s L. symmetry. now apply (bytes_of_firstn a s b).
Qed.
