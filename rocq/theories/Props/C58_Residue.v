(** C58: what of the data is left in the memory of a hash object. *)
From Coq Require Import String List NArith ZArith Arith Bool Lia.
From Verif.Base Require Import Res.
From Verif.Spec Require Import Words Client Legal Ledger Residue.
From Verif.Model Require Import Buffer Stream Api Library Chaining Residue.
From Verif.Tests Require Import Kit.
From Verif.Proof Require Residue.
From Verif.Proof Require Import Streaming.
Import ListNotations.
Local Open Scope N_scope.

(** The buffer of every object, at any point of any program (early and repeated finalize(), reset(), copies): the bytes given
    since the last finalize() or reset() that no complete block has taken, then zeros.  Nothing of earlier messages and
    nothing of the blocks already processed is in it; after finalize() and reset() it is all zero. *)
Theorem C58_buffer : forall (a : alg) dbg B cap late p os st i, buffering a = Some (B, cap, late) -> Forall (callable true) p ->
  exec (class a dbg) p (fun _ => c_new (class a dbg)) = Ok (os, st) ->
  let w := waiting late B (left given p (fun _ => []) i) in
  exists b, buffer a dbg (st i) = Some b /\ b_end b = length w /\ b_arr b = w ++ repeat 0 (cap - length w).
Proof.
  intros a dbg B cap late p os st i Hb Hp E w. exists (canon cap w). split; [exact (Proof.Residue.buffer_exec a dbg B cap late p os st Hb Hp E i)|]. split; reflexivity.
Qed.
Print Assumptions C58_buffer.

(** reset() after anything, in every class but FNV-0: the memory of the object is that of a new object *)
Theorem C58_reset : forall (a : alg) dbg x, fnv0 a = false -> Reachable (class a dbg) x -> c_reset (class a dbg) x = c_new (class a dbg).
Proof. exact Proof.Residue.reset_new. Qed.
Print Assumptions C58_reset.

(** A finalized object holds nothing about the message but its length and what == compares: two finalized objects of messages of
    one length that compare equal have the same memory, however the messages were divided; nothing done with them later
    can tell them apart *)
Theorem C58_same : forall (a : alg) dbg ds es x y, well_formed a -> Forall span_ok ds -> Forall span_ok es -> length (concat ds) = length (concat es) ->
  digested (class a dbg) ds x -> digested (class a dbg) es y -> equal a dbg x y = Ok true -> x = y.
Proof. exact Proof.Residue.same_memory. Qed.
Print Assumptions C58_same.

(** The classes that show all of what == compares: the memory is determined by the digest and the length *)
Theorem C58_digest : forall (a : alg) dbg ds es x y d, full a = true -> Forall span_ok ds -> Forall span_ok es -> length (concat ds) = length (concat es) ->
  digested (class a dbg) ds x -> digested (class a dbg) es y -> c_array (class a dbg) x = Ok d -> c_array (class a dbg) y = Ok d -> x = y.
Proof. exact Proof.Residue.same_digest. Qed.
Print Assumptions C58_digest.

(** ** Cases *)
(** SHA-1: 70 bytes, a copy, then finalize() of the first object: six bytes wait in the copy, nothing in the other one *)
Definition three : list cmd := [On 0 (AddData (counting 30)); On 0 (AddData (counting 40)); CopyTo 1 0; On 0 Finalize; On 2 (AddData (counting 5)); On 2 Reset].
Example three_callable : Forall (callable true) three.
Proof. repeat (apply Forall_cons; [first [exact I|apply span_okb_ok; vm_compute; reflexivity|intros ?; reflexivity]|]). apply Forall_nil. Qed.
Definition content (a : alg) (p : list cmd) (i : nat) : option (list N) :=
  match exec (class a true) p (fun _ => c_new (class a true)) with
  | Ok (_, st) => option_map b_arr (buffer a true (st i))
  | _ => None
  end.
Example sha1_left : map (waiting false 64) (map (left given three (fun _ => [])) [0%nat; 1%nat; 2%nat]) = [[]; [34; 35; 36; 37; 38; 39]; []].
Proof. vm_compute. reflexivity. Qed.
Example sha1_content : map (content SHA1 three) [0%nat; 1%nat; 2%nat] = [Some (repeat 0 128); Some ([34; 35; 36; 37; 38; 39] ++ repeat 0 122); Some (repeat 0 128)].
Proof. vm_compute. reflexivity. Qed.
(** BLAKE2 keeps a complete block until more data come or finalize() is called *)
Example blake2_content : content Blake2 [On 0 (AddData (counting 256))] 0 = Some (map (N.add 128) (counting 128)).
Proof. vm_compute. reflexivity. Qed.
Example blake2_left : waiting true 128 (counting 256) = map (N.add 128) (counting 128).
Proof. vm_compute. reflexivity. Qed.

(** two different messages with the same MD5 (Wang et al., 2004): the finalized objects are the same memory *)
Definition wang1 : list N := unhex "d131dd02c5e6eec4693d9a0698aff95c2fcab58712467eab4004583eb8fb7f8955ad340609f4b30283e488832571415a085125e8f7cdc99fd91dbdf280373c5bd8823e3156348f5bae6dacd436c919c6dd53e2b487da03fd02396306d248cda0e99f33420f577ee8ce54b67080a80d1ec69821bcb6a8839396f9652b6ff72a70".
Definition flip (i : nat) (m : list N) : list N := firstn i m ++ map (fun b => N.lxor b 128) (firstn 1 (skipn i m)) ++ skipn (S i) m.
Definition wang2 : list N := fold_right flip wang1 [19; 45; 59; 83; 109; 123]%nat.
Definition md5_end (ds : list (list N)) : res (Obj (class MD5 true)) :=
  let! x := foldM (c_add (class MD5 true)) ds (c_new (class MD5 true)) in c_finalize (class MD5 true) x.
Lemma md5_digested ds x : md5_end ds = Ok x -> digested (class MD5 true) ds x.
Proof.
  unfold md5_end, digested. intros E. destruct (foldM (c_add (class MD5 true)) ds (c_new (class MD5 true))) as [x0| |]; [|discriminate E|discriminate E].
  rewrite bind_ok in E. exists x0. split; [reflexivity|exact E].
Qed.
Example wang_differ : wang1 <> wang2.
Proof. intros E. apply (f_equal (fun l => nth 19 l 0)) in E. vm_compute in E. discriminate E. Qed.
Example wang_same : exists x y, digested (class MD5 true) [wang1] x /\ digested (class MD5 true) [firstn 100 wang2; skipn 100 wang2] y /\ x = y /\
  c_array (class MD5 true) x = Ok (unhex "79054025255fb1a26e4bc422aef54eb4").
Proof.
  assert (forall ds, match md5_end ds with Ok x => c_array (class MD5 true) x = Ok (unhex "79054025255fb1a26e4bc422aef54eb4") | _ => False end ->
    exists x, digested (class MD5 true) ds x /\ c_array (class MD5 true) x = Ok (unhex "79054025255fb1a26e4bc422aef54eb4")) as K.
  { intros ds H. generalize (md5_digested ds). destruct (md5_end ds) as [x| |]; [|contradiction|contradiction]. intros D. exists x. split; [now apply D|exact H]. }
  destruct (K [wang1]) as (x & Dx & Ex); [vm_compute; reflexivity|]. destruct (K [firstn 100 wang2; skipn 100 wang2]) as (y & Dy & Ey); [vm_compute; reflexivity|].
  exists x, y. split; [exact Dx|]. split; [exact Dy|]. split; [|exact Ex].
  refine (C58_digest MD5 true _ _ x y _ eq_refl _ _ _ Dx Dy Ex Ey); [spans|spans|vm_compute; reflexivity].
Qed.
(** an object in the middle of a message, finalized twice, and reset: as new *)
Definition mixed : list cmd := [On 0 (AddData (counting 100)); On 0 Finalize; On 0 (AddData (counting 7)); On 0 Finalize].
Example mixed_reset : exists x, Reachable (class (SHAKE_128 10) true) x /\ x <> c_new (class (SHAKE_128 10) true) /\
  c_reset (class (SHAKE_128 10) true) x = c_new (class (SHAKE_128 10) true).
Proof.
  assert (match exec (class (SHAKE_128 10) true) mixed (fun _ => c_new (class (SHAKE_128 10) true)) with Ok (os, st) => length (Model.Keccak.k_final (snd (st 0%nat))) = 10%nat | _ => False end) as K
    by (vm_compute; reflexivity).
  destruct (exec (class (SHAKE_128 10) true) mixed (fun _ => c_new (class (SHAKE_128 10) true))) as [[os st]| |] eqn:E; [|contradiction|contradiction].
  assert (Reachable (class (SHAKE_128 10) true) (st 0%nat)) as R.
  { exists mixed, os, st, 0%nat. split; [|split; [exact E|reflexivity]]. unfold program_bytes, mixed.
    repeat (apply Forall_cons; [first [exact I|refine (proj1 (span_okb_ok _ _)); vm_compute; reflexivity]|]). apply Forall_nil. }
  exists (st 0%nat). split; [exact R|]. split; [|exact (C58_reset (SHAKE_128 10) true _ eq_refl R)]. intros H. rewrite H in K. discriminate K.
Qed.
