(** FNV: the step is a bijection of the state for every byte; common endings cancel. *)
From Coq Require Import List NArith Arith Bool Lia.
From Verif.Base Require Import Res CWord.
From Verif.Spec Require Import Words Client.
From Verif.Model Require Import Api.
From Verif.Model Require Fnv.
From Verif.Proof Require Import Words Streaming Blocks Api Encode Fnv.
From Verif.Proof Require Crc32.
Import ListNotations.
Local Open Scope N_scope.

(** the inverse of the prime modulo 2^w *)
Definition inverse (w : N) : N := if w =? 32 then 0x359c449b else 0xce965057aff6957b.
Lemma inverse_ok size : size_ok size -> (Spec.Fnv.prime (M.width size) * inverse (M.width size)) mod 2 ^ M.width size = 1.
Proof. intros [-> | ->]; vm_compute; reflexivity. Qed.
Lemma width_pos size : size_ok size -> 2 ^ M.width size <> 0.
Proof. intros _. apply N.pow_nonzero. discriminate. Qed.

Section Step.
  Variables (size variant : nat).
  Hypothesis Hs : size_ok size.
  Hypothesis Hv : (variant <= 2)%nat.
  Let W := M.width size.

  Lemma W8 : 8 <= W.
  Proof using Hs. unfold W. destruct Hs as [-> | ->]; vm_compute; discriminate. Qed.
  Lemma multiply_inj h k : bnd W h -> bnd W k -> M.multiplyPrime size h = M.multiplyPrime size k -> h = k.
  Proof using Hs.
    intros Hh Hk E. rewrite !multiply_ok in E by exact Hs. fold W in E. pose proof (inverse_ok size Hs) as Hi. fold W in Hi.
    pose proof (width_pos size Hs) as Hw. fold W in Hw. unfold bnd in *.
    set (p := Spec.Fnv.prime W) in *. set (q := inverse W) in *. set (B := 2 ^ W) in *. clearbody p q B.
    assert (forall x, x < B -> ((x * p) mod B * q) mod B = x) as R.
    { intros x Hx. rewrite N.mul_mod_idemp_l, <- N.mul_assoc, <- N.mul_mod_idemp_r, Hi, N.mul_1_r by exact Hw. now apply N.mod_small. }
    rewrite <- (R h Hh), <- (R k Hk). now rewrite E.
  Qed.
  Lemma multiply_bnd h : bnd W (M.multiplyPrime size h).
  Proof using Hs. rewrite multiply_ok by exact Hs. apply N.mod_lt, (width_pos size Hs). Qed.
  Lemma byte_bnd b : byte_ok b -> bnd W b.
  Proof using Hs. intros Hb. apply (bnd_mono 8 W b W8 Hb). Qed.
  Lemma lxor_inj_l x y b : N.lxor x b = N.lxor y b -> x = y.
  Proof using. intros E. rewrite <- (N.lxor_0_r x), <- (N.lxor_0_r y), <- (N.lxor_nilpotent b), <- !N.lxor_assoc. now rewrite E. Qed.

  Lemma step_bnd h b : bnd W h -> byte_ok b -> bnd W (M.step size variant h b).
  Proof using Hs Hv.
    intros Hh Hb. unfold M.step. destruct variant as [|[|[|]]]; cbn [Nat.leb Nat.eqb]; try lia;
      [apply bnd_lxor; [apply multiply_bnd|now apply byte_bnd]..|apply multiply_bnd].
  Qed.
  Lemma step_inj h k b : bnd W h -> bnd W k -> byte_ok b -> M.step size variant h b = M.step size variant k b -> h = k.
  Proof using Hs Hv.
    intros Hh Hk Hb. unfold M.step. destruct variant as [|[|[|]]]; cbn [Nat.leb Nat.eqb]; try lia; intros E.
    - apply lxor_inj_l in E. now apply multiply_inj.
    - apply lxor_inj_l in E. now apply multiply_inj.
    - apply multiply_inj in E; [now apply lxor_inj_l in E|apply bnd_lxor; auto using byte_bnd..].
  Qed.
  Lemma step_byte h b c : bnd W h -> byte_ok b -> byte_ok c -> M.step size variant h b = M.step size variant h c -> b = c.
  Proof using Hs Hv.
    intros Hh Hb Hc. unfold M.step. destruct variant as [|[|[|]]]; cbn [Nat.leb Nat.eqb]; try lia; intros E.
    - rewrite !(N.lxor_comm (M.multiplyPrime size h)) in E. now apply lxor_inj_l in E.
    - rewrite !(N.lxor_comm (M.multiplyPrime size h)) in E. now apply lxor_inj_l in E.
    - apply multiply_inj in E; [|apply bnd_lxor; auto using byte_bnd..]. rewrite !(N.lxor_comm h) in E. now apply lxor_inj_l in E.
  Qed.
  Lemma steps_bnd t : bytes_ok t -> forall h, bnd W h -> bnd W (fold_left (M.step size variant) t h).
  Proof using Hs Hv. induction 1 as [|b t Hb Ht IH]; intros h Hh; [exact Hh|]. apply IH, step_bnd; assumption. Qed.
  Lemma steps_inj t : bytes_ok t -> forall h k, bnd W h -> bnd W k ->
    fold_left (M.step size variant) t h = fold_left (M.step size variant) t k -> h = k.
  Proof using Hs Hv.
    induction 1 as [|b t Hb Ht IH]; intros h k Hh Hk E; [exact E|]. cbn [fold_left] in E.
    apply IH in E; [|now apply step_bnd..]. now apply step_inj in E.
  Qed.
  Lemma start_bnd : bnd W (start size variant).
  Proof using Hs Hv. unfold start, W. destruct Hs as [-> | ->]; destruct variant; vm_compute; reflexivity. Qed.
  Lemma absorb_bnd m : bytes_ok m -> bnd W (absorb size variant m).
  Proof using Hs Hv. intros Hm. apply steps_bnd; [exact Hm|apply start_bnd]. Qed.

  (** the digest and the state determine each other *)
  Lemma run ds : hash_chunks (M.cls size variant) ds = Ok (be_bytes size (absorb size variant (concat ds))).
  Proof using Hs Hv. rewrite chunks by assumption. unfold absorb. now rewrite value_ok by assumption. Qed.
  Lemma same xs ys : bytes_ok (concat xs) -> bytes_ok (concat ys) ->
    (hash_chunks (M.cls size variant) xs = hash_chunks (M.cls size variant) ys <->
     absorb size variant (concat xs) = absorb size variant (concat ys)).
  Proof using Hs Hv.
    intros Hx Hy. rewrite !run. split; [|now intros ->]. intros E. apply Crc32.Ok_inj in E.
    apply Crc32.be_bytes_inj in E; [exact E| |]; rewrite pow256; now apply absorb_bnd.
  Qed.

  Theorem suffix_cancels xs ys us vs t : Forall bytes_ok xs -> Forall bytes_ok ys -> bytes_ok t ->
    concat us = concat xs ++ t -> concat vs = concat ys ++ t ->
    (hash_chunks (M.cls size variant) us = hash_chunks (M.cls size variant) vs <->
     hash_chunks (M.cls size variant) xs = hash_chunks (M.cls size variant) ys).
  Proof using Hs Hv.
    intros Hx Hy Ht Eu Ev.
    assert (forall l, Forall bytes_ok l -> bytes_ok (concat l)) as Hc.
    { induction 1; [constructor|]. cbn [concat]. apply Forall_app. split; assumption. }
    apply Hc in Hx. apply Hc in Hy. rewrite !same; [|assumption|assumption|rewrite Eu; now apply Forall_app|rewrite Ev; now apply Forall_app].
    rewrite Eu, Ev. unfold absorb. rewrite !fold_left_app. split; [|now intros ->]. intros E.
    apply steps_inj in E; [exact E|exact Ht|now apply absorb_bnd..].
  Qed.

  Theorem one_byte xs ys before b c after : bytes_ok before -> byte_ok b -> byte_ok c -> bytes_ok after -> b <> c ->
    concat xs = before ++ [b] ++ after -> concat ys = before ++ [c] ++ after ->
    hash_chunks (M.cls size variant) xs <> hash_chunks (M.cls size variant) ys.
  Proof using Hs Hv.
    intros Hp Hb Hc Ha Hne Ex Ey E. apply same in E;
      [|rewrite Ex; apply Forall_app; split; [exact Hp|now constructor]|rewrite Ey; apply Forall_app; split; [exact Hp|now constructor]].
    rewrite Ex, Ey in E. unfold absorb in E. rewrite !fold_left_app in E.
    pose proof (absorb_bnd before Hp) as H0. unfold absorb in H0.
    apply steps_inj in E; [|exact Ha|apply step_bnd; assumption..]. cbn [fold_left] in E. now apply step_byte in E.
  Qed.
End Step.

(** FNV-0 does not see zero bytes in front *)
Theorem leading_zeros size n xs ys : size_ok size -> concat ys = repeat 0 n ++ concat xs ->
  hash_chunks (M.cls size 0) ys = hash_chunks (M.cls size 0) xs.
Proof.
  intros Hs E. rewrite !run by (assumption || lia). rewrite E. unfold absorb. rewrite fold_left_app. unfold start. f_equal. f_equal.
  assert (fold_left (M.step size 0) (repeat 0 n) 0 = 0) as Z; [|cbn [start]; now rewrite Z].
  clear E. induction n as [|n IH]; [reflexivity|]. cbn [repeat fold_left]. unfold M.step at 2. cbn [Nat.leb Nat.eqb].
  rewrite multiply_ok by exact Hs. rewrite N.mul_0_l, N.mod_0_l by apply (width_pos size Hs). exact IH.
Qed.

(** finalize() may be left out: with or without it every program shows the same *)
Definition no_fin (c : cmd) : bool := match c with On _ Finalize => false | _ => true end.
Lemma finalize_any size variant p : forall st st1 os s, (forall i, st1 i = st i) -> exec (M.cls size variant) p st = Ok (os, s) ->
  exists s1, exec (M.cls size variant) (filter no_fin p) st1 = Ok (os, s1) /\ forall i, s1 i = s i.
Proof.
  induction p as [|c p IH]; intros st st1 os s H E.
  - cbn [exec filter] in *. injection E as <- <-. exists st1. auto.
  - destruct c as [i o|i j].
    + cbn [exec] in E. destruct (exec_op (M.cls size variant) o (st i)) as [[x w]| |] eqn:Eo; try discriminate.
      rewrite bind_ok in E. cbn [fst snd] in E.
      destruct (exec (M.cls size variant) p (put (M.cls size variant) st i x)) as [[os1 sx]| |] eqn:E1; try discriminate.
      rewrite bind_ok in E. cbn [fst snd] in E. injection E as <- <-.
      destruct (no_fin (On i o)) eqn:Ef; cbn [filter]; rewrite Ef.
      * destruct (IH (put (M.cls size variant) st i x) (put (M.cls size variant) st1 i x) os1 sx) as (s1 & E2 & E3);
          [intros k; unfold put; destruct (k =? i)%nat; [reflexivity|apply H]|exact E1|].
        exists s1. split; [|exact E3]. cbn [exec]. rewrite H, Eo, bind_ok. cbn [fst snd]. rewrite E2, bind_ok. reflexivity.
      * destruct o; try discriminate Ef. cbn [exec_op c_finalize M.cls] in Eo. unfold M.finalize in Eo. rewrite bind_ok in Eo.
        injection Eo as <- <-. apply (IH (put (M.cls size variant) st i (st i))); [|exact E1].
        intros k. unfold put. destruct (Nat.eqb_spec k i) as [->|]; apply H.
    + cbn [exec filter no_fin] in *. apply (IH (put (M.cls size variant) st i (st j))); [|exact E].
      intros k. unfold put. destruct (k =? i)%nat; apply H.
Qed.
Theorem finalize_optional size variant p os s : exec (M.cls size variant) p (fun _ => c_new (M.cls size variant)) = Ok (os, s) ->
  exists s1, exec (M.cls size variant) (filter no_fin p) (fun _ => c_new (M.cls size variant)) = Ok (os, s1) /\ forall i, s1 i = s i.
Proof. apply finalize_any. reflexivity. Qed.
