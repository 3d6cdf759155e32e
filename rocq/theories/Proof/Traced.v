(** What the compression functions are called on. *)
From Coq Require Import List NArith Arith Bool Lia.
From Verif.Base Require Import Res CWord.
From Verif.Spec Require Import Words Client Merkle Chaining.
From Verif.Spec Require Has160 Md4 Md5 Ripemd Sha1 Sha2 Sm3 Tiger Whirlpool.
From Verif.Model Require Import Buffer Stream Api Counter Library Chaining Traced.
From Verif.Proof Require Import Words Streaming Blocks Api MD MD128 Class Rounds Padding Collide.
From Verif.Proof Require Blake1 Has160 Md4 Md5 Ripemd Sha1 Sha2 Sm3 Tiger Whirlpool.
Import ListNotations.

Section Kinds.
  Context {H : Type} (B : nat) (compress : list N -> H -> res H) (iv : H) (cf : H -> list N -> H) (inv : H -> Prop).
  Hypothesis Hiv : inv iv.
  Hypothesis Hc : forall blk tl h, inv h -> length blk = B -> bytes_ok blk ->
    compress (blk ++ tl) h = Ok (cf h blk) /\ inv (cf h blk).

  Definition cf_t (h : H * list (list N)) (blk : list N) : H * list (list N) := (cf (fst h) blk, snd h ++ [blk]).
  Definition inv_t (h : H * list (list N)) : Prop := inv (fst h).

  Lemma traced_ok blk tl h : inv_t h -> length blk = B -> bytes_ok blk ->
    traced B compress (blk ++ tl) h = Ok (cf_t h blk) /\ inv_t (cf_t h blk).
  Proof using Hc.
    intros Hh Hl Hb. unfold traced, inv_t in *. destruct (Hc blk tl (fst h) Hh Hl Hb) as [-> Hi]. rewrite bind_ok.
    split; [|exact Hi]. unfold cf_t. do 3 f_equal. f_equal. rewrite <- Hl, firstn_app, Nat.sub_diag, firstn_all. apply app_nil_r.
  Qed.

  Lemma chain_traced d h : chain B cf_t h d = (chain B cf (fst h) d, snd h ++ pieces B d).
  Proof using.
    unfold chain. revert h. induction (pieces B d) as [|b l IH]; intros [h log]; cbn [fold_left fst snd].
    - now rewrite app_nil_r.
    - rewrite IH. unfold cf_t. cbn [fst snd]. now rewrite <- app_assoc.
  Qed.

  Definition once (C T : HashClass) (st : Obj C -> H) (tr : Obj T -> H * list (list N)) (buf : Obj C -> list N)
      (P : list N -> list N) (ds : list (list N)) : Prop :=
    exists x0 x t0 t,
      foldM (c_add C) ds (c_new C) = Ok x0 /\ c_finalize C x0 = Ok x /\
      foldM (c_add T) ds (c_new T) = Ok t0 /\ c_finalize T t0 = Ok t /\
      tr t0 = (st x0, pieces B (pre B (concat ds))) /\ tr t = (st x, pieces B (P (concat ds))) /\
      buf x0 = rest B (concat ds).

  Lemma once_of C T st tr buf P ds hC hT dom abC dnC abT dnT :
    Implements C hC dom abC dnC -> Implements T hT dom abT dnT -> Forall span_ok ds -> dom (concat ds) ->
    tr (abT (concat ds)) = (st (abC (concat ds)), pieces B (pre B (concat ds))) ->
    tr (dnT (concat ds)) = (st (dnC (concat ds)), pieces B (P (concat ds))) ->
    buf (abC (concat ds)) = rest B (concat ds) ->
    once C T st tr buf P ds.
  Proof using.
    intros IC IT Hds Hd E1 E2 E3. pose proof (concat_bytes ds Hds) as Hm.
    exists (abC (concat ds)), (dnC (concat ds)), (abT (concat ds)), (dnT (concat ds)).
    split; [rewrite (im_new _ _ _ _ _ IC); exact (foldM_absorb IC ds Hds [] (Forall_nil _))|].
    split; [exact (im_fin _ _ _ _ _ IC _ Hm Hd)|].
    split; [rewrite (im_new _ _ _ _ _ IT); exact (foldM_absorb IT ds Hds [] (Forall_nil _))|].
    split; [exact (im_fin _ _ _ _ _ IT _ Hm Hd)|]. auto.
  Qed.
End Kinds.

Lemma md_once {H} (compress : list N -> H -> res H) iv (cf : H -> list N -> H) (inv : H -> Prop) dbg mk wl enc ds :
  inv iv ->
  (forall blk tl h, inv h -> length blk = 64 -> bytes_ok blk -> compress (blk ++ tl) h = Ok (cf h blk) /\ inv (cf h blk)) ->
  (mk < 256)%N ->
  (wl = write_len_le /\ enc = le_bytes 8 \/ wl = write_len_be /\ enc = be_bytes 8) ->
  Forall span_ok ds ->
  once 64 (md_class 64 dbg mk wl compress iv (fun _ => Ok []))
    (md_class 64 dbg mk wl (traced 64 compress) (iv, []) (fun _ => Ok []))
    (fun o => md_h (snd o)) (fun o => md_h (snd o)) (fun o => buf_span (fst o)) (pad 64 8 mk enc) ds.
Proof.
  intros Hiv Hc Hmk Hk Hds.
  assert (forall H' (f : list N -> H' -> res H') iv' (cf' : H' -> list N -> H') (inv' : H' -> Prop), inv' iv' ->
    (forall blk tl h, inv' h -> length blk = 64 -> bytes_ok blk -> f (blk ++ tl) h = Ok (cf' h blk) /\ inv' (cf' h blk)) ->
    Implements (md_class 64 dbg mk wl f iv' (fun _ => Ok [])) (fun m => []) (fun _ => True)
              (md_absorb 64 iv' cf') (md_done 64 mk enc iv' cf')) as G.
  { intros H' f iv' cf' inv' Hi' Hf'.
    apply (md_implements 64 dbg mk wl enc f iv' (fun _ => Ok []) cf' (fun _ => []) inv');
        try assumption; try reflexivity; try lia.
    - destruct Hk as [[-> ->]|[-> ->]]; [apply write_len_le_ok|apply write_len_be_ok].
    - destruct Hk as [[-> ->]|[-> ->]]; [apply le_bytes_length|apply be_bytes_length].
    - destruct Hk as [[-> ->]|[-> ->]]; [apply le_bytes_ok|apply be_bytes_ok].
    - destruct Hk as [[-> ->]|[-> ->]]; [apply (le_bytes_mod 8)|apply (be_bytes_mod 8)].
    - intros h _. split; [reflexivity|constructor]. }
  pose proof (G H compress iv cf inv Hiv Hc) as I1.
  pose proof (G _ (traced 64 compress) (iv, []) (cf_t cf) (inv_t inv) Hiv (traced_ok 64 compress cf inv Hc)) as I2.
  apply (once_of 64 _ _ _ _ _ _ ds _ _ _ _ _ _ _ I1 I2 Hds I).
  - unfold md_absorb, absorb, md_run. cbn [snd md_h]. rewrite chain_traced. reflexivity.
  - unfold md_done, md_hash. cbn [snd md_h]. rewrite chain_traced. reflexivity.
  - unfold md_absorb, absorb. cbn [fst]. apply canon_span.
Qed.

Lemma md8_once {H} (compress : list N -> H -> res H) iv (cf : H -> list N -> H) (inv : H -> Prop) B r dbg enc (dom : list N -> Prop) ds :
  inv iv ->
  (forall blk tl h, inv h -> length blk = B -> bytes_ok blk -> compress (blk ++ tl) h = Ok (cf h blk) /\ inv (cf h blk)) ->
  r <= B -> 16 <= r -> (N.of_nat (2 * B) < 2 ^ 64)%N ->
  (forall x, length (enc x) = r) -> (forall x, bytes_ok (enc x)) ->
  (forall m, dom m -> enc (8 * N.of_nat (length m))%N = repeat 0%N (r - 16) ++ be_bytes 16 (8 * N.of_nat (length m))) ->
  Forall span_ok ds -> dom (concat ds) ->
  once B (md128_class B r dbg compress iv (fun _ => Ok []))
    (md128_class B r dbg (traced B compress) (iv, []) (fun _ => Ok []))
    (fun o => md8_h (snd o)) (fun o => md8_h (snd o)) (fun o => buf_span (fst o)) (pad B r 128 enc) ds.
Proof.
  intros Hiv Hc HB Hr H64 Hl Hk He Hds Hd.
  assert (forall H' (f : list N -> H' -> res H') iv' (cf' : H' -> list N -> H') (inv' : H' -> Prop), inv' iv' ->
    (forall blk tl h, inv' h -> length blk = B -> bytes_ok blk -> f (blk ++ tl) h = Ok (cf' h blk) /\ inv' (cf' h blk)) ->
    Implements (md128_class B r dbg f iv' (fun _ => Ok [])) (fun m => []) dom
              (md8_absorb B iv' cf') (md8_done B r enc iv' cf')) as G.
  { intros H' f iv' cf' inv' Hi' Hf'.
    apply (md128_implements B r dbg enc dom f iv' (fun _ => Ok []) cf' (fun _ => []) inv'); try assumption.
    intros h _. split; [reflexivity|constructor]. }
  pose proof (G H compress iv cf inv Hiv Hc) as I1.
  pose proof (G _ (traced B compress) (iv, []) (cf_t cf) (inv_t inv) Hiv (traced_ok B compress cf inv Hc)) as I2.
  apply (once_of B _ _ _ _ _ _ ds _ _ _ _ _ _ _ I1 I2 Hds Hd).
  - unfold md8_absorb, absorb, md8_run. cbn [snd md8_h]. rewrite chain_traced. reflexivity.
  - unfold md8_done, md8_hash. cbn [snd md8_h]. rewrite chain_traced. reflexivity.
  - unfold md8_absorb, absorb. cbn [fst]. apply canon_span.
Qed.

Definition once_for (a : alg) (dbg : bool) (B r : nat) (mk : N) (enc : N -> list N) (ds : list (list N)) : Prop :=
  once B (class a dbg) (traced_class a dbg) (chaining a dbg) (trace a dbg) (waiting a dbg) (pad B r mk enc) ds.

Ltac once64 cf0 inv0 ok k :=
  refine (md_once _ _ cf0 inv0 _ _ _ _ _ _ _ _ k _);
  [first [words|repeat split; reflexivity]|intros; apply ok; assumption|reflexivity|assumption].
Ltac once512 cf0 :=
  refine (md8_once _ _ cf0 (Sha2.inv_state 64) 128 16 _ (be_bytes 16) (fun _ => True) _ _ _ _ _ _ _ _ _ _ I);
  [words|intros; apply Sha2.compress64_ok; assumption|lia|lia|reflexivity|apply be_bytes_length|apply be_bytes_ok|reflexivity|assumption].

Theorem once_all a dbg B r mk enc ds : padding a = Some (B, r, mk, enc) -> Forall span_ok ds -> fits (counts a) (concat ds) ->
  once_for a dbg B r mk enc ds.
Proof.
  intros E Hds Hf. unfold once_for. destruct a; try discriminate E; injection E as <- <- <- <-;
    cbn [State initial compression chaining class counts padding traced_class trace waiting] in *.
  - once64 Spec.Has160.compress (words_ok 5) Has160.compress_ok enc8_le.
  - once64 Spec.Md4.compress (words_ok 4) Md4.compress_ok enc8_le.
  - once64 Spec.Md5.compress (words_ok 4) Md5.compress_ok enc8_le.
  - once64 Spec.Ripemd.compress128 (words_ok 4) Ripemd.compress128_ok enc8_le.
  - once64 Spec.Ripemd.compress160 (words_ok 5) Ripemd.compress160_ok enc8_le.
  - once64 Spec.Ripemd.compress256 (words_ok 8) Ripemd.compress256_ok enc8_le.
  - once64 Spec.Ripemd.compress320 (words_ok 10) Ripemd.compress320_ok enc8_le.
  - once64 Spec.Sha1.compress Sha1.inv_state Sha1.compress_ok enc8_be.
  - once64 Spec.Sha2.compress256 (Sha2.inv_state 32) Sha2.compress32_ok enc8_be.
  - once64 Spec.Sha2.compress256 (Sha2.inv_state 32) Sha2.compress32_ok enc8_be.
  - once512 Spec.Sha2.compress512.
  - once512 Spec.Sha2.compress512.
  - once512 Spec.Sha2.compress512.
  - once512 Spec.Sha2.compress512.
  - once64 Spec.Sm3.compress (words_ok 8) Sm3.compress_ok enc8_be.
  - once64 Spec.Tiger.compress Tiger.v_ok Tiger.compress_ok enc8_le.
  - once64 Spec.Tiger.compress Tiger.v_ok Tiger.compress_ok enc8_le.
  - once64 Spec.Tiger.compress Tiger.v_ok Tiger.compress_ok enc8_le.
  - once64 Spec.Tiger.compress Tiger.v_ok Tiger.compress_ok enc8_le.
  - once64 Spec.Tiger.compress Tiger.v_ok Tiger.compress_ok enc8_le.
  - once64 Spec.Tiger.compress Tiger.v_ok Tiger.compress_ok enc8_le.
  - assert (Whirlpool.inv_h Model.Whirlpool.iv) as Hiv
      by (exists Spec.Whirlpool.iv; split; [exact Whirlpool.iv_mat|exact Whirlpool.iv_words]).
    refine (md8_once _ _ Whirlpool.cf Whirlpool.inv_h 64 32 _ (be_bytes 32) (fits 128) _ Hiv _ _ _ _ _ _ _ Hds Hf);
      [apply Whirlpool.compress_ok|lia|lia|reflexivity|apply be_bytes_length|apply be_bytes_ok|].
    intros m Hm. apply Whirlpool.length_field, Hm.
Qed.

(** in plain terms *)
Theorem in_order a dbg B r mk enc ds : padding a = Some (B, r, mk, enc) -> Forall span_ok ds -> fits (counts a) (concat ds) ->
  exists x0 x t0 t,
    foldM (c_add (class a dbg)) ds (c_new (class a dbg)) = Ok x0 /\ c_finalize (class a dbg) x0 = Ok x /\
    foldM (c_add (traced_class a dbg)) ds (c_new (traced_class a dbg)) = Ok t0 /\ c_finalize (traced_class a dbg) t0 = Ok t /\
    fst (trace a dbg t0) = chaining a dbg x0 /\ fst (trace a dbg t) = chaining a dbg x /\
    concat (snd (trace a dbg t0)) ++ waiting a dbg x0 = concat ds /\
    length (waiting a dbg x0) < B /\ Forall (fun b => length b = B) (snd (trace a dbg t0)) /\
    snd (trace a dbg t) = pieces B (pad B r mk enc (concat ds)) /\
    (exists new, snd (trace a dbg t) = snd (trace a dbg t0) ++ new /\
      length new = if length (concat ds) mod B + 1 + r <=? B then 1 else 2).
Proof.
  intros E Hds Hf. destruct (padding_facts a B r mk enc E) as (HB & Hr & _ & Hl & _ & _).
  destruct (once_all a dbg B r mk enc ds E Hds Hf) as (x0 & x & t0 & t & E1 & E2 & E3 & E4 & T0 & T1 & W).
  set (m := concat ds) in *. clearbody m.
  assert (r < B) as Hrb by (clear -E; destruct a; try discriminate E; injection E as <- <- <- <-; lia).
  pose proof (pre_aligned B m HB) as Hp. pose proof (rest_lt B m HB) as Hrl.
  set (tl := rest B m ++ [mk] ++ repeat 0%N (zeros B r (length m)) ++ enc (8 * N.of_nat (length m))%N).
  assert (pieces B (pad B r mk enc m) = pieces B (pre B m) ++ pieces B tl) as Hpp
    by (rewrite pad_tail; apply pieces_app; assumption).
  assert (length tl = if length m mod B + 1 + r <=? B then B else 2 * B) as Ht.
  { unfold tl. rewrite !app_length, repeat_length, Hl, rest_length by exact HB. cbn [length].
    pose proof (Nat.mod_upper_bound (length m) B ltac:(lia)).
    destruct (Nat.leb_spec (length m mod B + 1 + r) B) as [L|L].
    - rewrite Blake1.zeros_one by lia. lia.
    - rewrite Blake1.zeros_two by lia. lia. }
  exists x0, x, t0, t. rewrite T0, T1, W. cbn [fst snd].
  assert (forall l, aligned B l -> concat (pieces B l) = l) as Hcat.
  { apply (aligned_ind B); [exact HB|reflexivity|]. intros b u Hb Hu IH. rewrite pieces_cons by assumption. cbn [concat]. now rewrite IH. }
  do 6 (split; [first [assumption|reflexivity]|]).
  split; [rewrite Hcat by exact Hp; apply pre_rest|]. split; [exact Hrl|]. split; [apply pieces_all; assumption|].
  split; [reflexivity|]. exists (pieces B tl). split; [exact Hpp|].
  assert (aligned B tl) as Ha by (unfold aligned; rewrite Ht; destruct (_ <=? _); [apply Nat.mod_same|apply Nat.mod_mul]; lia).
  rewrite pieces_length by assumption. rewrite Ht. destruct (_ <=? _); [apply Nat.div_same|apply Nat.div_mul]; lia.
Qed.
