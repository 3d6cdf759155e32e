(** C57: SHA-3, SHAKE and cSHAKE objects of different messages compare equal only behind an inner collision. *)
From Coq Require Import String List NArith ZArith Arith Bool Lia.
From Verif.Base Require Import Res.
From Verif.Spec Require Import Words Client ObjClient Log2 Sp800185 CShakeArgs Domain Keccak Inner.
From Verif.Model Require Import Buffer Stream Api ObjApi Library Chaining ObjEquality.
From Verif.Tests Require Import Kit KitObj.
From Verif.Model Require CShake.
From Verif.Proof Require Inner Log2Witness.
From Verif.Proof Require Import Class.
From Verif.Props Require C17_CShake C38_Domains.
Import ListNotations.
Local Open Scope N_scope.

(** If operator== holds of two finalized objects of one class, the messages are the same, or the blocks before the last
    ones are different and lead to the same capacity part: no weakness of the padding, the last block, the squeezing or the
    comparison can make two objects equal *)
Theorem C57_equal : forall (a : alg) rate s d dbg ds es x y, sponge_parameters a = Some (rate, s, d) ->
  Forall span_ok ds -> Forall span_ok es -> digested (class a dbg) ds x -> digested (class a dbg) es y ->
  equal a dbg x y = Ok true ->
  concat ds = concat es \/ inner_collision rate (removelast (fed rate s (concat ds))) (removelast (fed rate s (concat es))).
Proof. exact Proof.Inner.class_meet. Qed.
Print Assumptions C57_equal.

(** In particular messages that differ in one block only, anywhere, never have equal objects *)
Theorem C57_block : forall (a : alg) rate s d dbg ds es x y u b b' v, sponge_parameters a = Some (rate, s, d) ->
  Forall span_ok ds -> Forall span_ok es -> digested (class a dbg) ds x -> digested (class a dbg) es y ->
  concat ds = u ++ b ++ v -> concat es = u ++ b' ++ v ->
  (length u mod rate = 0)%nat -> length b = length b' -> (length b <= rate)%nat -> b <> b' ->
  equal a dbg x y = Ok false.
Proof. exact Proof.Inner.class_block. Qed.
Print Assumptions C57_block.

(** Conversely an inner collision is enough: whatever block follows one input, some block behind the other one leads to
    objects that are equal and show the same digest, with any common remainder *)
Theorem C57_reached : forall (a : alg) rate s d dbg u v t, sponge_parameters a = Some (rate, s, d) ->
  (length u mod rate = 0)%nat -> (length v mod rate = 0)%nat -> bytes_ok u -> bytes_ok v -> bytes_ok t -> length t = rate ->
  inner rate (absorbed rate (pieces rate u)) = inner rate (absorbed rate (pieces rate v)) ->
  exists t', length t' = rate /\ bytes_ok t' /\
    forall w ds es x y, Forall span_ok ds -> Forall span_ok es -> concat ds = u ++ t ++ w -> concat es = v ++ t' ++ w ->
      digested (class a dbg) ds x -> digested (class a dbg) es y ->
      equal a dbg x y = Ok true /\ exists e, c_array (class a dbg) x = Ok e /\ c_array (class a dbg) y = Ok e.
Proof. exact Proof.Inner.class_reached. Qed.
Print Assumptions C57_reached.

(** And there are such messages for every class, so "compare equal" never means "same message" *)
Theorem C57_exist : forall (a : alg) rate s d dbg, sponge_parameters a = Some (rate, s, d) ->
  exists m m' x y e, m <> m' /\ bytes_ok m /\ bytes_ok m' /\
    digested (class a dbg) [m] x /\ digested (class a dbg) [m'] y /\
    equal a dbg x y = Ok true /\ c_array (class a dbg) x = Ok e /\ c_array (class a dbg) y = Ok e.
Proof. exact Proof.Inner.class_collide. Qed.
Print Assumptions C57_exist.

(** cSHAKE objects of one output length: same name, customization and message, or an inner collision *)
Theorem C57_cshake128 : forall lg dbg (length : Z) name custom name' custom' ds es x y, log2_accurate lg ->
  ok_cargs (length, name, custom) -> ok_cargs (length, name', custom') -> Forall span_ok ds -> Forall span_ok es ->
  odigested (Model.CShake.cls128 lg dbg) (length, name, custom) ds x ->
  odigested (Model.CShake.cls128 lg dbg) (length, name', custom') es y -> cshake_eq x y = Ok true ->
  (name = name' /\ custom = custom' /\ concat ds = concat es) \/
  inner_collision 168 (removelast (fed 168 (FromCShake name custom) (concat ds))) (removelast (fed 168 (FromCShake name' custom') (concat es))).
Proof. exact Proof.Inner.cshake128_meet. Qed.
Print Assumptions C57_cshake128.
Theorem C57_cshake256 : forall lg dbg (length : Z) name custom name' custom' ds es x y, log2_accurate lg ->
  ok_cargs (length, name, custom) -> ok_cargs (length, name', custom') -> Forall span_ok ds -> Forall span_ok es ->
  odigested (Model.CShake.cls256 lg dbg) (length, name, custom) ds x ->
  odigested (Model.CShake.cls256 lg dbg) (length, name', custom') es y -> cshake_eq x y = Ok true ->
  (name = name' /\ custom = custom' /\ concat ds = concat es) \/
  inner_collision 136 (removelast (fed 136 (FromCShake name custom) (concat ds))) (removelast (fed 136 (FromCShake name' custom') (concat es))).
Proof. exact Proof.Inner.cshake256_meet. Qed.
Print Assumptions C57_cshake256.

(** ** Concrete cases *)
(** the same message in different chunks: equal *)
Example C57_equal_case : exists x y, digested (class SHA3_256 true) [text "a"; []; text "bc"] x /\ digested (class SHA3_256 true) [text "abc"] y /\
  equal SHA3_256 true x y = Ok true.
Proof.
  destruct (C38_Domains.run_one (class SHA3_256 true) [text "a"; []; text "bc"] (fun x => exists y, digested (class SHA3_256 true) [text "abc"] y /\ equal SHA3_256 true x y = Ok true)) as (x & H & y & Hy & E); [|eauto].
  match goal with |- match ?e with _ => _ end => let v := eval vm_compute in e in replace e with v by (vm_compute; reflexivity) end. cbv iota beta.
  match goal with |- match ?e with _ => _ end => let v := eval vm_compute in e in replace e with v by (vm_compute; reflexivity) end. cbv iota beta.
  apply C38_Domains.run_one. vm_compute. reflexivity.
Qed.
(** one byte in the second of three blocks differs: never equal, whatever the chunks *)
Example C57_block_case : forall ds es x y, Forall span_ok ds -> Forall span_ok es ->
  digested (class SHA3_512 false) ds x -> digested (class SHA3_512 false) es y ->
  concat ds = counting 72 ++ text "a" ++ counting 100 -> concat es = counting 72 ++ text "b" ++ counting 100 ->
  equal SHA3_512 false x y = Ok false.
Proof.
  intros ds es x y Hd He Hx Hy Cd Ce.
  refine (C57_block SHA3_512 72 FromSha3 64 false ds es x y _ _ _ _ eq_refl Hd He Hx Hy Cd Ce _ _ _ _); try reflexivity; [cbn; lia|discriminate].
Qed.
(** different inputs with the same capacity part exist for each rate (by counting: 25 blocks against less than 200 bytes) *)
Example C57_reached_case : exists u v, u <> v /\ length u = (136 * 25)%nat /\ length v = (136 * 25)%nat /\ bytes_ok u /\ bytes_ok v /\
  inner 136 (absorbed 136 (pieces 136 u)) = inner 136 (absorbed 136 (pieces 136 v)).
Proof. exact (Proof.Inner.inner_exists 17 ltac:(lia) ltac:(lia)). Qed.
Example C57_exist_case : sponge_parameters SHA3_256 = Some (136%nat, FromSha3, 32%nat) /\ sponge_parameters (SHAKE_128 200) = Some (168%nat, FromShake, 200%nat).
Proof. split; reflexivity. Qed.
Example C57_cshake128_case : exists x,
  odigested (Model.CShake.cls128 Proof.Log2Witness.correct_log2 true) (32%Z, [], text "Email Signature") [[0]; [1; 2]; []; [3]] x.
Proof. destruct C38_Domains.C38_cshake128_case as (x & H & _). exists x. exact H. Qed.
