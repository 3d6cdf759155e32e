#!/usr/bin/env python3
"""Writes rocq/theories/Props/C17_CShake.v, C18_TupleHash.v and C33_CShakeObjects.v (both widths of each theorem)."""
import os
here = os.path.dirname(os.path.dirname(os.path.abspath(__file__)))
out = os.path.join(here, 'rocq/theories/Props')
HEAD = '''From Coq Require Import String List NArith ZArith Lia.
From Verif.Base Require Import Res.
From Verif.Spec Require Import Words Client ObjClient Log2 CShakeArgs.
From Verif.Model Require Import Api ObjApi.
From Verif.Tests Require Import Kit KitObj.
From Verif.Spec Require Keccak Sp800185.
From Verif.Model Require Keccak CShake TupleHash.
From Verif.Proof Require ObjApi Keccak CShake TupleHash Log2Witness.
Import ListNotations.
Local Open Scope N_scope.

'''
W = {'128': dict(w='128', r='1344', c='256', R='168'), '256': dict(w='256', r='1088', c='512', R='136')}

def sub(t, d):
    for k, v in d.items():
        t = t.replace('@' + k + '@', v)
    return t

C17 = '''
(** ** CSHAKE_@w@ *)

(** Constructor, any sequence of addData calls, finalize(), toVector(): names and customizations of
    at most 2^56 - 2^8 bits.  std::log2 is assumed accurate to 5/8 of an ulp. *)
Theorem C17_cshake@w@_partial : forall lg dbg (length : Z) name custom chunks,
  log2_accurate lg -> (0 <= length)%Z -> Sp800185.short name -> Sp800185.short custom -> Forall span_ok chunks ->
  ohash (Model.CShake.cls@w@ lg dbg) (length, name, custom) chunks =
  Ok (Sp800185.cshake@w@ (Z.to_nat length) name custom (concat chunks)).
Proof. exact Proof.CShake.cshake@w@_hash. Qed.
Print Assumptions C17_cshake@w@_partial.

(** the missing part: longer ones do not work (9 * 10^15 bytes and more) *)
Theorem C17_cshake@w@_long_refuted : forall lg dbg (length : Z) name custom chunks,
  log2_accurate lg -> (0 <= length)%Z -> long name \\/ Sp800185.short name /\\ long custom ->
  ohash (Model.CShake.cls@w@ lg dbg) (length, name, custom) chunks = if dbg then Throw OutOfRange else Ub OobWrite.
Proof. exact Proof.CShake.cshake@w@_long. Qed.
Print Assumptions C17_cshake@w@_long_refuted.

(** every program over any number of such objects (see Spec/ObjClient.v and Spec/CShakeArgs.v) *)
Theorem C17_cshake@w@_history : forall lg dbg p os s', log2_accurate lg ->
  orun (fun a l => cshake@w@ a (concat l)) ok_cargs span_ok may_reset may_assign p (fun _ => NoObject) os s' ->
  exists st', oexec (Model.CShake.cls@w@ lg dbg) p (fun _ => None) = Ok (os, st').
Proof. exact (fun lg dbg p os s' H => Proof.ObjApi.objcorrect_history _ _ _ _ _ _ (Proof.CShake.cshake@w@_correct lg dbg H) p os s'). Qed.
Print Assumptions C17_cshake@w@_history.

(** without name and customization the object is a SHAKE object *)
Theorem C17_cshake@w@_plain : forall lg dbg (length : Z) chunks,
  log2_accurate lg -> (0 <= length)%Z -> Forall span_ok chunks ->
  ohash (Model.CShake.cls@w@ lg dbg) (length, [], []) chunks = hash_chunks (Model.Keccak.shake@w@ dbg (Z.to_nat length)) chunks.
Proof.
  exact (fun lg dbg length chunks Hlg Hl H => eq_trans
    (Proof.CShake.cshake@w@_hash lg dbg length [] [] chunks Hlg Hl (conj (Forall_nil _) (N.le_0_l _)) (conj (Forall_nil _) (N.le_0_l _)) H)
    (eq_sym (Proof.Api.correct_chunks _ _ _ (Proof.Keccak.shake@w@_correct dbg (Z.to_nat length)) chunks H I))).
Qed.
Print Assumptions C17_cshake@w@_plain.

Theorem C17_cshake@w@_negative : forall lg dbg (length : Z) name custom chunks, (length < 0)%Z ->
  ohash (Model.CShake.cls@w@ lg dbg) (length, name, custom) chunks = Throw LengthError.
Proof. exact Proof.CShake.cshake@w@_negative. Qed.
Print Assumptions C17_cshake@w@_negative.

(** the output of length a is the beginning of the output of length b *)
Theorem C32_cshake@w@ : forall lg dbg dbg' (a b : Z) name custom chunks chunks',
  log2_accurate lg -> (0 <= a <= b)%Z -> Sp800185.short name -> Sp800185.short custom ->
  Forall span_ok chunks -> Forall span_ok chunks' -> concat chunks = concat chunks' ->
  exists out out', ohash (Model.CShake.cls@w@ lg dbg) (b, name, custom) chunks = Ok out /\\
    ohash (Model.CShake.cls@w@ lg dbg') (a, name, custom) chunks' = Ok out' /\\
    length out = Z.to_nat b /\\ out' = firstn (Z.to_nat a) out.
Proof. exact Proof.CShake.cshake@w@_prefix_objects. Qed.
Print Assumptions C32_cshake@w@.

(** the samples of NIST *)
Example C17_cshake@w@_case1 : Sp800185.cshake@w@ @len@ [] (text "Email Signature") [0; 1; 2; 3] = unhex "@h1@".
Proof. apply (Proof.CShake.via_keccak@w@ true); [one_span|vm_compute; reflexivity]. Qed.
Example C17_cshake@w@_case2 : Sp800185.cshake@w@ @len@ [] (text "Email Signature") (counting 200) = unhex "@h2@".
Proof. apply (Proof.CShake.via_keccak@w@ false); [one_span|vm_compute; reflexivity]. Qed.

(** an object meeting all hypotheses *)
Example C17_cshake@w@_object :
  ohash (Model.CShake.cls@w@ Proof.Log2Witness.correct_log2 true) (@len@%Z, [], text "Email Signature") [[0]; [1; 2]; []; [3]] = Ok (unhex "@h1@").
Proof.
  rewrite <- C17_cshake@w@_case1.
  apply (C17_cshake@w@_partial _ true @len@); [exact Proof.Log2Witness.correct_log2_accurate|lia|shorts|shorts|spans].
Qed.

(** the same with copies, moves and assignments between several objects *)
Example C17_cshake@w@_program : exists os s',
  orun (fun a l => cshake@w@ a (concat l)) ok_cargs span_ok may_reset may_assign (cshake_program @len@) (fun _ => NoObject) os s' /\\
  nth_error os 0 = Some (OBytes (unhex "@h1@")).
Proof.
  destruct (cshake_program_runs (fun a l => cshake@w@ a (concat l)) @len@ ltac:(lia)) as (os & s' & H & E). exists os, s'. split; [exact H|].
  cbv beta in E. rewrite E.
  rewrite (cshake@w@_eq @len@%Z @len@%nat [] (text "Email Signature") [[0; 1]; [2; 3]] [0; 1; 2; 3] _ eq_refl eq_refl C17_cshake@w@_case1). reflexivity.
Qed.
'''

C18 = '''
(** ** TupleHash_@w@ *)

Theorem C18_tuplehash@w@_partial : forall lg dbg (length : Z) custom tuple,
  log2_accurate lg -> (0 <= length < 2 ^ 28)%Z -> Sp800185.short custom -> Forall Sp800185.short tuple ->
  ohash (Model.TupleHash.cls@w@ lg dbg) (length, custom) tuple = Ok (Sp800185.tuplehash@w@ (Z.to_nat length) custom tuple).
Proof. exact Proof.TupleHash.tuplehash@w@_hash. Qed.
Print Assumptions C18_tuplehash@w@_partial.

(** the missing part: strings of 9 * 10^15 bytes and more do not work *)
Theorem C18_tuplehash@w@_long_refuted : forall lg dbg (length : Z) custom tuple,
  log2_accurate lg -> (0 <= length)%Z -> long custom ->
  ohash (Model.TupleHash.cls@w@ lg dbg) (length, custom) tuple = if dbg then Throw OutOfRange else Ub OobWrite.
Proof. exact Proof.TupleHash.tuplehash@w@_long. Qed.
Print Assumptions C18_tuplehash@w@_long_refuted.

(** every program over any number of such objects, without reset() and assignments to moved-from objects *)
Theorem C18_tuplehash@w@_history : forall lg dbg p os s', log2_accurate lg ->
  orun tuplehash@w@ ok_targs Sp800185.short no_reset live_assign p (fun _ => NoObject) os s' ->
  exists st', oexec (Model.TupleHash.cls@w@ lg dbg) p (fun _ => None) = Ok (os, st').
Proof. exact (fun lg dbg p os s' H => Proof.ObjApi.objcorrect_history _ _ _ _ _ _ (Proof.TupleHash.tuplehash@w@_correct lg dbg H) p os s'). Qed.
Print Assumptions C18_tuplehash@w@_history.

(** the other digest lengths: the constructor throws, or finalize() overflows an int *)
Theorem C18_tuplehash@w@_negative : forall lg dbg (length : Z) custom tuple, (length < 0)%Z ->
  ohash (Model.TupleHash.cls@w@ lg dbg) (length, custom) tuple = Throw LengthError.
Proof. exact Proof.TupleHash.tuplehash@w@_negative. Qed.
Print Assumptions C18_tuplehash@w@_negative.
Theorem C18_tuplehash@w@_overflow : forall lg dbg (length : Z) custom tuple,
  log2_accurate lg -> (2 ^ 28 <= length)%Z -> Sp800185.short custom -> Forall Sp800185.short tuple ->
  ohash (Model.TupleHash.cls@w@ lg dbg) (length, custom) tuple = Ub SignedOverflow.
Proof. exact Proof.TupleHash.tuplehash@w@_too_long. Qed.
Print Assumptions C18_tuplehash@w@_overflow.

(** the samples of NIST *)
Example C18_tuplehash@w@_case1 : Sp800185.tuplehash@w@ @len@ [] [counting 3; [16; 17; 18; 19; 20; 21]] = unhex "@t1@".
Proof. apply (Proof.CShake.via_keccak@w@ true); [one_span|vm_compute; reflexivity]. Qed.
Example C18_tuplehash@w@_case2 :
  Sp800185.tuplehash@w@ @len@ (text "My Tuple App") [counting 3; [16; 17; 18; 19; 20; 21]; [32; 33; 34; 35; 36; 37; 38; 39; 40]] = unhex "@t3@".
Proof. apply (Proof.CShake.via_keccak@w@ false); [one_span|vm_compute; reflexivity]. Qed.

(** an object meeting all hypotheses *)
Example C18_tuplehash@w@_object :
  ohash (Model.TupleHash.cls@w@ Proof.Log2Witness.correct_log2 true) (@len@%Z, []) [counting 3; [16; 17; 18; 19; 20; 21]] = Ok (unhex "@t1@").
Proof.
  rewrite <- C18_tuplehash@w@_case1.
  apply (C18_tuplehash@w@_partial _ true @len@); [exact Proof.Log2Witness.correct_log2_accurate|lia|shorts|repeat constructor; shorts].
Qed.
'''

C31 = '''
(** what TupleHash_@w@ hashes is the encoded byte stream *)
Theorem C31_tuplehash@w@ : forall lg dbg (length : Z) custom tuple,
  log2_accurate lg -> (0 <= length < 2 ^ 28)%Z -> Sp800185.short custom -> Forall Sp800185.short tuple ->
  ohash (Model.TupleHash.cls@w@ lg dbg) (length, custom) tuple =
  Ok (Spec.Keccak.bytes_of (Spec.Keccak.keccak @c@ (8 * Z.to_nat length)
       (Spec.Keccak.bits_of (Sp800185.cshake_stream @R@ Sp800185.tuple_name custom (Sp800185.tuple_stream (Z.to_nat length) tuple)) ++ [false; false]))).
Proof. exact Proof.TupleHash.tuplehash@w@_hash. Qed.
Print Assumptions C31_tuplehash@w@.

(** and different inputs give different streams *)
Theorem C31_injective@w@ : forall (d d' : nat) custom custom' tuple tuple',
  N.of_nat d < 2 ^ 61 -> N.of_nat d' < 2 ^ 61 ->
  Forall (fun s => Sp800185.bit_length s < 2 ^ 2040) (custom :: tuple) ->
  Forall (fun s => Sp800185.bit_length s < 2 ^ 2040) (custom' :: tuple') ->
  Sp800185.cshake_stream @R@ Sp800185.tuple_name custom (Sp800185.tuple_stream d tuple) =
  Sp800185.cshake_stream @R@ Sp800185.tuple_name custom' (Sp800185.tuple_stream d' tuple') ->
  d = d' /\\ custom = custom' /\\ tuple = tuple'.
Proof. exact (Proof.TupleHash.stream_inj @R@ ltac:(lia)). Qed.
Print Assumptions C31_injective@w@.

(** so objects given different input can only agree if two different streams collide in the sponge *)
Theorem C31_collision@w@ : forall lg dbg dbg' (length : Z) custom custom' tuple tuple' out,
  log2_accurate lg -> (0 <= length < 2 ^ 28)%Z -> Sp800185.short custom -> Sp800185.short custom' ->
  Forall Sp800185.short tuple -> Forall Sp800185.short tuple' ->
  (custom, tuple) <> (custom', tuple') ->
  ohash (Model.TupleHash.cls@w@ lg dbg) (length, custom) tuple = Ok out ->
  ohash (Model.TupleHash.cls@w@ lg dbg') (length, custom') tuple' = Ok out ->
  exists s s', s <> s' /\\
    Spec.Keccak.bytes_of (Spec.Keccak.keccak @c@ (8 * Z.to_nat length) (Spec.Keccak.bits_of s ++ [false; false])) = out /\\
    Spec.Keccak.bytes_of (Spec.Keccak.keccak @c@ (8 * Z.to_nat length) (Spec.Keccak.bits_of s' ++ [false; false])) = out.
Proof. exact Proof.TupleHash.tuplehash@w@_collision. Qed.
Print Assumptions C31_collision@w@.
'''

C33 = '''
(** ** CSHAKE_@w@ *)

(** every program with copies, moves, assignments and resets where reset() is only called on objects
    without name and customization, copy assignment only joins objects that both have or both lack
    them, and moved-from objects are only destroyed or move-assigned to *)
Theorem C33_cshake@w@_partial : forall lg dbg p os s', log2_accurate lg ->
  orun (fun a l => cshake@w@ a (concat l)) ok_cargs span_ok may_reset may_assign p (fun _ => NoObject) os s' ->
  exists st', oexec (Model.CShake.cls@w@ lg dbg) p (fun _ => None) = Ok (os, st').
Proof. exact (fun lg dbg p os s' H => Proof.ObjApi.objcorrect_history _ _ _ _ _ _ (Proof.CShake.cshake@w@_correct lg dbg H) p os s'). Qed.
Print Assumptions C33_cshake@w@_partial.

(** copy assignment between any two new objects of the two kinds dereferences a null pointer *)
Theorem C33_cshake@w@_assign_refuted : forall lg dbg a b,
  log2_accurate lg -> ok_cargs a -> ok_cargs b -> customized b <> customized a ->
  oexec (Model.CShake.cls@w@ lg dbg) [Construct 0 b; Construct 1 a; CopyAssign 0 1] (fun _ => None) = Ub NullDeref.
Proof. exact Proof.CShake.cshake@w@_assign_refuted. Qed.
Print Assumptions C33_cshake@w@_assign_refuted.

(** so does copy assignment to an object whose contents were moved to a new object *)
Theorem C33_cshake@w@_moved_refuted : forall lg dbg a b,
  log2_accurate lg -> ok_cargs a -> ok_cargs b ->
  oexec (Model.CShake.cls@w@ lg dbg) [Construct 0 b; Construct 1 a; MoveConstruct 2 0; CopyAssign 0 1] (fun _ => None) = Ub NullDeref.
Proof. exact Proof.CShake.cshake@w@_moved_refuted. Qed.
Print Assumptions C33_cshake@w@_moved_refuted.

Example C33_cshake@w@_case :
  oexec (Model.CShake.cls@w@ Proof.Log2Witness.correct_log2 false)
    [Construct 0 (32%Z, [], []); Construct 1 (32%Z, [], text "Email Signature"); CopyAssign 0 1] (fun _ => None) = Ub NullDeref.
Proof.
  apply (C33_cshake@w@_assign_refuted _ false (32%Z, [], text "Email Signature") (32%Z, [], []));
    [exact Proof.Log2Witness.correct_log2_accurate|split; [lia|split; shorts]|split; [lia|split; shorts]|discriminate].
Qed.

(** ** TupleHash_@w@ *)
Theorem C33_tuplehash@w@_partial : forall lg dbg p os s', log2_accurate lg ->
  orun tuplehash@w@ ok_targs Sp800185.short no_reset live_assign p (fun _ => NoObject) os s' ->
  exists st', oexec (Model.TupleHash.cls@w@ lg dbg) p (fun _ => None) = Ok (os, st').
Proof. exact (fun lg dbg p os s' H => Proof.ObjApi.objcorrect_history _ _ _ _ _ _ (Proof.TupleHash.tuplehash@w@_correct lg dbg H) p os s'). Qed.
Print Assumptions C33_tuplehash@w@_partial.
Theorem C33_tuplehash@w@_moved_refuted : forall lg dbg a b,
  log2_accurate lg -> ok_targs a -> ok_targs b ->
  oexec (Model.TupleHash.cls@w@ lg dbg) [Construct 0 b; Construct 1 a; MoveConstruct 2 0; CopyAssign 0 1] (fun _ => None) = Ub NullDeref.
Proof. exact Proof.TupleHash.tuplehash@w@_moved_refuted. Qed.
Print Assumptions C33_tuplehash@w@_moved_refuted.
Example C33_tuplehash@w@_program : exists os s',
  orun tuplehash@w@ ok_targs Sp800185.short no_reset live_assign (tuple_program @len@) (fun _ => NoObject) os s' /\\
  nth_error os 0 = Some (OBytes (unhex "@t1@")).
Proof.
  destruct (tuple_program_runs tuplehash@w@ @len@ ltac:(lia)) as (os & s' & H & E). exists os, s'. split; [exact H|].
  rewrite E.
  rewrite (tuplehash@w@_eq @len@%Z @len@%nat _ _ _ eq_refl C18_tuplehash@w@_case1). reflexivity.
Qed.
'''

C23 = '''
(** ** reset() of a customized CSHAKE_@w@ object: it then computes the bare sponge function *)
Theorem C23_cshake@w@_drops : forall lg dbg a x y,
  log2_accurate lg -> ok_cargs a -> customized a = true -> span_ok x -> span_ok y ->
  exists st, oexec (Model.CShake.cls@w@ lg dbg) [Construct 0 a; Feed 0 x; Rst 0; Feed 0 y; Fin 0; Vec 0] (fun _ => None) =
    Ok ([OBytes (Spec.Keccak.bytes_of (Spec.Keccak.keccak @c@ (8 * Z.to_nat (fst (fst a))) (Spec.Keccak.bits_of y ++ [false; false])))], st).
Proof. exact Proof.CShake.cshake@w@_reset_drops. Qed.
Print Assumptions C23_cshake@w@_drops.

Lemma C23_prefixed@w@ : cshake@w@ (8%Z, [], text "Email Signature") [0; 1; 2; 3] = unhex "@p1@".
Proof. apply (Proof.CShake.via_keccak@w@ true 8); [one_span|vm_compute; reflexivity]. Qed.
Lemma C23_bare@w@ : Proof.CShake.hashK@w@ 8 [0; 1; 2; 3] = unhex "@b1@".
Proof. apply (Proof.CShake.via_bare@w@ true 8); [one_span|vm_compute; reflexivity]. Qed.
Lemma C23_tuple_prefixed@w@ : Sp800185.tuplehash@w@ 8 [] [[0; 1; 2]] = unhex "@p2@".
Proof. apply (Proof.CShake.via_keccak@w@ true 8); [one_span|vm_compute; reflexivity]. Qed.
Lemma C23_tuple_bare@w@ : Proof.CShake.hashK@w@ 8 (Sp800185.tuple_stream 8 [[0; 1; 2]]) = unhex "@b2@".
Proof. apply (Proof.CShake.via_bare@w@ true 8); [one_span|vm_compute; reflexivity]. Qed.

(** so reset() does not make it as good as new *)
Theorem C23_cshake@w@_refuted : forall lg dbg, log2_accurate lg ->
  exists a x y out out' st st', ok_cargs a /\\ span_ok x /\\ span_ok y /\\
    oexec (Model.CShake.cls@w@ lg dbg) [Construct 0 a; Feed 0 x; Rst 0; Feed 0 y; Fin 0; Vec 0] (fun _ => None) = Ok ([OBytes out], st) /\\
    oexec (Model.CShake.cls@w@ lg dbg) [Construct 0 a; Feed 0 y; Fin 0; Vec 0] (fun _ => None) = Ok ([OBytes out'], st') /\\
    out <> out'.
Proof.
  exact (Proof.CShakeReset.cshake@w@_reset_refuted (8%Z, [], text "Email Signature") [] [0; 1; 2; 3] _ _
    (conj (Zle_0_nat 8) (conj (shortb_ok [] eq_refl) (shortb_ok (text "Email Signature") eq_refl))) eq_refl
    (span_okb_ok [] eq_refl) (span_okb_ok [0; 1; 2; 3] eq_refl) C23_prefixed@w@ C23_bare@w@ ltac:(vm_compute; discriminate)).
Qed.
Print Assumptions C23_cshake@w@_refuted.

Theorem C23_tuplehash@w@_refuted : forall lg dbg, log2_accurate lg ->
  exists a x y out out' st st', ok_targs a /\\ Sp800185.short x /\\ Sp800185.short y /\\
    oexec (Model.TupleHash.cls@w@ lg dbg) [Construct 0 a; Feed 0 x; Rst 0; Feed 0 y; Fin 0; Vec 0] (fun _ => None) = Ok ([OBytes out], st) /\\
    oexec (Model.TupleHash.cls@w@ lg dbg) [Construct 0 a; Feed 0 y; Fin 0; Vec 0] (fun _ => None) = Ok ([OBytes out'], st') /\\
    out <> out'.
Proof.
  exact (Proof.CShakeReset.tuplehash@w@_reset_refuted 8%Z [] [] [0; 1; 2] _ _
    (conj (conj (Zle_0_nat 8) eq_refl) (shortb_ok [] eq_refl)) (shortb_ok [] eq_refl) (shortb_ok [0; 1; 2] eq_refl)
    C23_tuple_prefixed@w@ C23_tuple_bare@w@ ltac:(vm_compute; discriminate)).
Qed.
Print Assumptions C23_tuplehash@w@_refuted.
'''
data = {
 '128': dict(p1='c1c36925b6409a04', b1='0cc58f1e632af231', p2='1fdcd3c1a3a9fa89', b2='bcc23c6d2cb52b33', len='32', h1='c1c36925b6409a04f1b504fcbca9d82b4017277cb5ed2b2065fc1d3814d5aaf5', h2='c5221d50e4f822d96a2e8881a961420f294b7b24fe3d2094baed2c6524cc166b',
   t1='c5d8786c1afb9b82111ab34b65b2c0048fa64e6d48e263264ce1707d3ffc8ed1', t3='e60f202c89a2631eda8d4c588ca5fd07f39e5151998deccf973adb3804bb6e84'),
 '256': dict(p1='d008828e2b80ac9d', b1='7fade073b9a3384f', p2='d25e2cb2ca664f4d', b2='fea5425ea8a188de', len='64', h1='d008828e2b80ac9d2218ffee1d070c48b8e4c87bff32c9699d5b6896eee0edd164020e2be0560858d9c00c037e34a96937c561a74c412bb4c746469527281c8c',
   h2='07dc27b11e51fbac75bc7b3c1d983e8b4b85fb1defaf218912ac86430273091727f42b17ed1df63e8ec118f04b23633c1dfb1574c8fb55cb45da8e25afb092bb',
   t1='cfb7058caca5e668f81a12a20a2195ce97a925f1dba3e7449a56f82201ec607311ac2696b1ab5ea2352df1423bde7bd4bb78c9aed1a853c78672f9eb23bbe194',
   t3='45000be63f9b6bfd89f54717670f69a9bc763591a4f05c50d68891a744bcc6e7d6d5b5e82c018da999ed35b0bb49c9678e526abd8e85c13ed254021db9e790ce'),
}
def emit(fname, comment, body, extra=''):
    with open(os.path.join(out, fname), 'w') as f:
        f.write(comment + '\n' + HEAD + extra)
        for w in ('128', '256'):
            f.write(sub(body, dict(W[w], **data[w])))
emit('C17_CShake.v', '(** C17: cSHAKE of NIST SP 800-185.  C32: shorter outputs are prefixes of longer ones.\n    Generated by tools/gen_cshake_props.py. *)', C17)
emit('C18_TupleHash.v', '(** C18: TupleHash of NIST SP 800-185.  Generated by tools/gen_cshake_props.py. *)', C18)
emit('C31_TupleStream.v', '(** C31: the input of TupleHash is encoded unambiguously.  Generated by tools/gen_cshake_props.py. *)', C31,
'''(** moving bytes between neighbouring elements changes the stream *)
Theorem C31_regroup : forall (d : nat) custom before x y z after, N.of_nat d < 2 ^ 61 -> y <> [] ->
  Forall (fun s => Sp800185.bit_length s < 2 ^ 2040) (custom :: before ++ [x ++ y; z; x; y ++ z] ++ after) ->
  Sp800185.cshake_stream 168 Sp800185.tuple_name custom (Sp800185.tuple_stream d (before ++ [x ++ y; z] ++ after)) <>
  Sp800185.cshake_stream 168 Sp800185.tuple_name custom (Sp800185.tuple_stream d (before ++ [x; y ++ z] ++ after)).
Proof. exact (Proof.TupleHash.regroup 168 ltac:(lia)). Qed.
Print Assumptions C31_regroup.
Example C31_regroup_case :
  Sp800185.cshake_stream 168 Sp800185.tuple_name [] (Sp800185.tuple_stream 32 [text "ab"; text "c"]) <>
  Sp800185.cshake_stream 168 Sp800185.tuple_name [] (Sp800185.tuple_stream 32 [text "a"; text "bc"]).
Proof. apply (C31_regroup 32 [] [] (text "a") (text "b") (text "c") []); [reflexivity|discriminate|repeat constructor]. Qed.
''')
emit('C33_CShakeObjects.v', '(** C33: copies, moves and assignments of cSHAKE and TupleHash objects.  Generated by tools/gen_cshake_props.py. *)', C33,
     'From Verif.Props Require Import C18_TupleHash.\n')
emit('C23_CShakeReset.v', '(** C23 for cSHAKE and TupleHash: reset() forgets name and customization.  Generated by tools/gen_cshake_props.py. *)', C23,
     'From Verif.Proof Require CShakeReset.\n')
