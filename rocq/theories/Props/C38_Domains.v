(** C38: SHA-3, SHAKE and cSHAKE with the same rate never give the same blocks to the permutation. *)
From Coq Require Import String List NArith ZArith Arith Bool Lia.
From Verif.Base Require Import Res.
From Verif.Spec Require Import Words Client ObjClient Log2 Sp800185 CShakeArgs Domain.
From Verif.Model Require Import Buffer Stream Api ObjApi Library Chaining.
From Verif.Tests Require Import Kit KitObj.
From Verif.Model Require Keccak CShake.
From Verif.Proof Require Domain Log2Witness.
From Verif.Props Require C17_CShake.
Import ListNotations.
Local Open Scope N_scope.

(** rates of 8 q bytes, which all of them have; cSHAKE with empty name and customization is by definition SHAKE *)
Theorem C38_domains : forall q s1 s2 m1 m2, (0 < q <= 25)%nat -> proper s1 -> proper s2 -> bytes_ok m1 -> bytes_ok m2 ->
  fed (8 * q) s1 m1 = fed (8 * q) s2 m2 -> function_of s1 = function_of s2 /\ m1 = m2.
Proof. exact (fun q s1 s2 m1 m2 H => Proof.Domain.fed_inj q (proj1 H) (proj2 H) s1 s2 m1 m2). Qed.
Print Assumptions C38_domains.

(** These are the blocks that objects process, whatever the chunks, followed by blocks of zeros (no change of the state
    between two permutations) for digests longer than the rate *)
Theorem C38_objects : forall (a : alg) rate s d dbg ds x, sponge_parameters a = Some (rate, s, d) ->
  Forall span_ok ds -> digested (class a dbg) ds x ->
  exists h, sponge_state a dbg x = Some h /\
    foldM (Model.Keccak.compress rate) (fed rate s (concat ds) ++ repeat (repeat 0 rate) ((d - 1) / rate)) (repeat 0 25) = Ok h.
Proof. exact Proof.Domain.class_fed. Qed.
Print Assumptions C38_objects.
Theorem C38_cshake128 : forall lg dbg (length : Z) name custom ds x, log2_accurate lg -> ok_cargs (length, name, custom) ->
  Forall span_ok ds -> odigested (Model.CShake.cls128 lg dbg) (length, name, custom) ds x ->
  exists h, selected_state x = Some h /\
    foldM (Model.Keccak.compress 168)
      (fed 168 (FromCShake name custom) (concat ds) ++ repeat (repeat 0 168%nat) ((Z.to_nat length - 1) / 168)) (repeat 0 25) = Ok h.
Proof. exact Proof.Domain.cshake128_fed. Qed.
Print Assumptions C38_cshake128.
Theorem C38_cshake256 : forall lg dbg (length : Z) name custom ds x, log2_accurate lg -> ok_cargs (length, name, custom) ->
  Forall span_ok ds -> odigested (Model.CShake.cls256 lg dbg) (length, name, custom) ds x ->
  exists h, selected_state x = Some h /\
    foldM (Model.Keccak.compress 136)
      (fed 136 (FromCShake name custom) (concat ds) ++ repeat (repeat 0 136%nat) ((Z.to_nat length - 1) / 136)) (repeat 0 25) = Ok h.
Proof. exact Proof.Domain.cshake256_fed. Qed.
Print Assumptions C38_cshake256.

(** All this is about new objects.  After reset() the name and customization of a cSHAKE object are lost (C20), and then
    the separation is lost, too: whoever chooses the message can make the object compute cSHAKE with any other name n and
    customization c. *)
Theorem C38_cshake128_after_reset : forall lg dbg (length : Z) n c n' c' x m, log2_accurate lg ->
  ok_cargs (length, n', c') -> customized (length, n', c') = true -> span_ok x ->
  short n -> short c -> is_nil n && is_nil c = false -> bytes_ok m -> N.of_nat (List.length m) < 2 ^ 62 ->
  exists st, oexec (Model.CShake.cls128 lg dbg)
    [Construct 0 (length, n', c'); Feed 0 x; Rst 0; Feed 0 (cshake_stream 168 n c m); Fin 0; Vec 0] (fun _ => None) =
    Ok ([OBytes (CShakeArgs.cshake128 (length, n, c) m)], st).
Proof. exact Proof.Domain.cshake128_reset_domain. Qed.
Print Assumptions C38_cshake128_after_reset.
Theorem C38_cshake256_after_reset : forall lg dbg (length : Z) n c n' c' x m, log2_accurate lg ->
  ok_cargs (length, n', c') -> customized (length, n', c') = true -> span_ok x ->
  short n -> short c -> is_nil n && is_nil c = false -> bytes_ok m -> N.of_nat (List.length m) < 2 ^ 62 ->
  exists st, oexec (Model.CShake.cls256 lg dbg)
    [Construct 0 (length, n', c'); Feed 0 x; Rst 0; Feed 0 (cshake_stream 136 n c m); Fin 0; Vec 0] (fun _ => None) =
    Ok ([OBytes (CShakeArgs.cshake256 (length, n, c) m)], st).
Proof. exact Proof.Domain.cshake256_reset_domain. Qed.
Print Assumptions C38_cshake256_after_reset.

(** ** cases *)
(** the three kinds, of the same message at the rate of 136 bytes; the header of cSHAKE fills a block *)
Example C38_domains_case :
  fed 136 FromSha3 (text "abc") = [text "abc" ++ [0x06] ++ repeat 0 131 ++ [0x80]] /\
  fed 136 FromShake (text "abc") = [text "abc" ++ [0x1F] ++ repeat 0 131 ++ [0x80]] /\
  fed 136 (FromCShake (text "Q") []) (text "abc") =
    [[1; 136; 1; 8] ++ text "Q" ++ [1; 0] ++ repeat 0 129; text "abc" ++ [0x04] ++ repeat 0 131 ++ [0x80]] /\
  proper (FromCShake (text "Q") []).
Proof.
  split; [vm_compute; reflexivity|]. split; [vm_compute; reflexivity|]. split; [vm_compute; reflexivity|].
  apply Proof.Domain.short_proper; shorts.
Qed.
(** a message that ends like the padding of another one, and one with only one byte to be filled *)
Example C38_domains_case2 :
  fed 136 FromSha3 (counting 135) = [counting 135 ++ [0x86]] /\
  fed 136 FromShake (counting 135) = [counting 135 ++ [0x9F]] /\
  fed 136 FromSha3 (counting 135 ++ [0x86]) = [counting 135 ++ [0x86]; [0x06] ++ repeat 0 134 ++ [0x80]].
Proof. vm_compute. auto. Qed.

Lemma run_one C ds (P : Obj C -> Prop) :
  match foldM (c_add C) ds (c_new C) with
  | Ok y => match c_finalize C y with Ok x => P x | _ => False end
  | _ => False
  end -> exists x, digested C ds x /\ P x.
Proof.
  intros G. destruct (foldM (c_add C) ds (c_new C)) as [y| |] eqn:E; try contradiction.
  destruct (c_finalize C y) as [x| |] eqn:F; try contradiction. exists x. split; [exists y; auto|exact G].
Qed.
Lemma run_one_object C a ds out : ohash C a ds = Ok out -> exists x, odigested C a ds x /\ oc_vector C x = Ok out.
Proof.
  unfold ohash. intros G. destruct (oc_construct C a) as [x0| |] eqn:D; try discriminate. rewrite bind_ok in G.
  destruct (foldM (oc_feed C) ds x0) as [y| |] eqn:E; try discriminate. rewrite bind_ok in G.
  destruct (oc_finalize C y) as [x| |] eqn:F; try discriminate. rewrite bind_ok in G.
  exists x. split; [exists x0, y; auto|exact G].
Qed.
(** SHA3-256 of "abc" begins 3a985da74fe225b2; SHAKE128 with 200 bytes of output needs a second permutation, and its bytes
    168 to 175 are the first word then *)
Example C38_objects_case : exists x, digested (class SHA3_256 true) [text "a"; []; text "bc"] x /\
  option_map (fun h => nth 0 h 0) (sponge_state SHA3_256 true x) = Some 0xb225e24fa75d983a.
Proof. apply run_one. vm_compute. reflexivity. Qed.
Example C38_objects_case2 : exists x, digested (class (SHAKE_128 200) false) [text "abc"] x /\
  option_map (fun h => nth 0 h 0) (sponge_state (SHAKE_128 200) false x) = Some 0x8057f05a3f1ba06a.
Proof. apply run_one. vm_compute. reflexivity. Qed.
(** the first sample of NIST *)
Example C38_cshake128_case : exists x,
  odigested (Model.CShake.cls128 Proof.Log2Witness.correct_log2 true) (32%Z, [], text "Email Signature") [[0]; [1; 2]; []; [3]] x /\
  Model.CShake.toVector x = Ok (unhex "c1c36925b6409a04f1b504fcbca9d82b4017277cb5ed2b2065fc1d3814d5aaf5").
Proof. exact (run_one_object _ _ _ _ Props.C17_CShake.C17_cshake128_object). Qed.
(** an object with name "A" that was reset computes that sample, too *)
Example C38_after_reset_case : exists st,
  oexec (Model.CShake.cls128 Proof.Log2Witness.correct_log2 true)
    [Construct 0 (32%Z, text "A", []); Feed 0 (text "x"); Rst 0; Feed 0 (cshake_stream 168 [] (text "Email Signature") [0; 1; 2; 3]); Fin 0; Vec 0]
    (fun _ => None) = Ok ([OBytes (CShakeArgs.cshake128 (32%Z, [], text "Email Signature") [0; 1; 2; 3])], st).
Proof.
  apply C38_cshake128_after_reset; try shorts; try one_span; try reflexivity; try exact Proof.Log2Witness.correct_log2_accurate.
  - split; [lia|split; shorts].
Qed.
