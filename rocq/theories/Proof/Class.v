(** The 64-byte-block classes with 32-bit words and a 64-bit length, from their compression function. *)
From Coq Require Import List NArith Arith Bool Lia.
From Verif.Base Require Import Res CWord.
From Verif.Spec Require Import Words Client Merkle.
From Verif.Model Require Import Buffer Stream Api.
From Verif.Proof Require Import Words Streaming Blocks Api MD Rounds.
Import ListNotations.
Local Open Scope N_scope.

Definition words_ok (n : nat) (h : list N) : Prop := length h = n /\ Forall (bnd 32) h.

Lemma flat_length (f : N -> list N) k l : (forall x, length (f x) = k) ->
  length (flat_map f l) = (k * length l)%nat.
Proof. intros H. induction l as [|a l IH]; [cbn; lia|]. cbn [flat_map length]. rewrite app_length, H, IH. lia. Qed.

Section Class.
  Variables (n : nat) (dbg : bool) (compress : list N -> list N -> res (list N)) (iv : list N).
  Variable cf : list N -> list N -> list N.
  Hypothesis Hiv : words_ok n iv.
  Hypothesis Hc : forall blk tl h, length blk = 64%nat -> bytes_ok blk -> words_ok n h ->
    compress (blk ++ tl) h = Ok (cf h blk) /\ words_ok n (cf h blk).

  Theorem class_le size : size = (4 * n)%nat ->
    Correct (md_class 64 dbg 128 write_len_le compress iv
               (fun st => store_array size (flat_map (word_bytes_le 4) st)))
      (fun m => flat_map (le_bytes 4) (chain 64 cf iv (pad 64 8 128 (le_bytes 8) m))) (fun _ => True).
  Proof.
    intros Hs. do 2 eexists.
    apply (md_implements 64 dbg 128 write_len_le (le_bytes 8) compress iv _ cf (flat_map (le_bytes 4)) (words_ok n)).
    - lia.
    - reflexivity.
    - reflexivity.
    - apply write_len_le_ok.
    - apply le_bytes_length.
    - apply le_bytes_ok.
    - apply (le_bytes_mod 8).
    - exact Hiv.
    - intros blk tl h Hh Hl Hb. apply Hc; assumption.
    - intros h [Hl _]. rewrite (flat_map_ext _ (le_bytes 4)) by apply word_bytes_le_ok. split.
      + apply store_array_eq. rewrite (flat_length _ 4), Hl by apply le_bytes_length. auto.
      + apply bytes_ok_flat_map, le_bytes_ok.
  Qed.

  Theorem class_be size : size = (4 * n)%nat ->
    Correct (md_class 64 dbg 128 write_len_be compress iv
               (fun st => store_array size (flat_map (word_bytes_be 4) st)))
      (fun m => flat_map (be_bytes 4) (chain 64 cf iv (pad 64 8 128 (be_bytes 8) m))) (fun _ => True).
  Proof.
    intros Hs. do 2 eexists.
    apply (md_implements 64 dbg 128 write_len_be (be_bytes 8) compress iv _ cf (flat_map (be_bytes 4)) (words_ok n)).
    - lia.
    - reflexivity.
    - reflexivity.
    - apply write_len_be_ok.
    - apply be_bytes_length.
    - apply be_bytes_ok.
    - apply (be_bytes_mod 8).
    - exact Hiv.
    - intros blk tl h Hh Hl Hb. apply Hc; assumption.
    - intros h [Hl _]. rewrite (flat_map_ext _ (be_bytes 4)) by apply word_bytes_be_ok. split.
      + apply store_array_eq. rewrite (flat_length _ 4), Hl by apply be_bytes_length. auto.
      + apply bytes_ok_flat_map, be_bytes_ok.
  Qed.
End Class.
