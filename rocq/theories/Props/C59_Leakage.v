(** C59: what an observer of array indices and branches learns. *)
From Coq Require Import List NArith Arith Bool.
From Verif.Base Require Import Leak.
From Verif.Base Require Res.
From Verif.Spec Require Import Words Client Shape.
From Verif.Model Require Import Api Library LeakLibrary.
From Verif.Model Require SipHash.
From Verif.Model.Leak Require LkStream LkSipHash.
From Verif.Proof Require LeakErase LeakEqual LeakPrograms LeakTables.
Import ListNotations.
Local Open Scope N_scope.

(** The functions that record indices and branches are the functions of the model: same outcomes, for every class and program. *)
Theorem C59_same_functions : forall (a : alg) dbg p,
  outcome (observed a dbg p) = exec (class a dbg) p (fun _ => c_new (class a dbg)).
Proof. exact Proof.LeakErase.observed_erases. Qed.
Print Assumptions C59_same_functions.
Theorem C59_same_equality : forall n i l r, outcome (LeakLibrary.eq_loop n i l r) = Library.eq_loop n i l r.
Proof. exact Proof.LeakErase.er_eq_loop. Qed.
Print Assumptions C59_same_equality.
Theorem C59_same_constructor : forall dbg k, outcome (LkSipHash.construct dbg k) = Model.SipHash.construct dbg k.
Proof. exact Proof.LeakErase.er_sip_construct. Qed.
Print Assumptions C59_same_constructor.

(** Two programs that differ only in the contents of the data show the same indices and branches: all classes without
    tables, any number of objects, calls in any order, legal or not. *)
Theorem C59_library_partial : forall (a : alg) dbg p q, tabled a = false -> same_shape p q -> no_text p ->
  trace (observed a dbg p) = trace (observed a dbg q).
Proof.
  intros a dbg p q T S X. destruct (Proof.LeakPrograms.quiet_all a a dbg T (Proof.LeakPrograms.kin_same a)) as [R H].
  apply (Proof.LeakPrograms.ct_run _ _ _ _ R H p q S X). intros _. exact (proj1 H).
Qed.
Print Assumptions C59_library_partial.

(** SipHash: the same for different keys, and for the constructor that takes the key. *)
Theorem C59_siphash_key_partial : forall k0 k1 l0 l1 dbg p q, same_shape p q -> no_text p ->
  trace (observed (SipHash k0 k1) dbg p) = trace (observed (SipHash l0 l1) dbg q).
Proof.
  intros k0 k1 l0 l1 dbg p q S X. destruct (Proof.LeakPrograms.quiet_all (SipHash k0 k1) (SipHash l0 l1) dbg eq_refl (Proof.LeakPrograms.kin_key k0 k1 l0 l1)) as [R H].
  apply (Proof.LeakPrograms.ct_run _ _ _ _ R H p q S X). intros _. exact (proj1 H).
Qed.
Print Assumptions C59_siphash_key_partial.
Theorem C59_siphash_constructor : forall dbg k l, length k = length l -> trace (LkSipHash.construct dbg k) = trace (LkSipHash.construct dbg l).
Proof. intros dbg k l L. exact (proj1 (Proof.LeakEqual.ct_sip_construct dbg k l L)). Qed.
Print Assumptions C59_siphash_constructor.

(** The classes with tables: the indices of one hash computation tell the message, every byte of it. *)
Theorem C59_tables_refuted : forall (a : alg) dbg m q, tabled a = true -> span_ok m -> span_ok q -> length m = length q ->
  trace (observed a dbg [On 0 (AddData m); On 0 Finalize]) = trace (observed a dbg [On 0 (AddData q); On 0 Finalize]) -> m = q.
Proof. exact Proof.LeakTables.tables_show. Qed.
Print Assumptions C59_tables_refuted.

(** toString(): the branches tell which digits are letters, and nothing else. *)
Theorem C59_text_refuted : forall d e, d <> [] -> length d = length e -> bytes_ok d -> bytes_ok e ->
  trace (LkStream.to_string d) = trace (LkStream.to_string e) <-> letters d = letters e.
Proof. exact Proof.LeakPrograms.text_shows. Qed.
Print Assumptions C59_text_refuted.

(** operator==: the branches tell how many leading elements agree, and nothing else. *)
Theorem C59_equality_refuted : forall l r l' r', length l = length r -> length l' = length l -> length r' = length l ->
  trace (LeakLibrary.eq_loop (length l) 0 l r) = trace (LeakLibrary.eq_loop (length l) 0 l' r') <-> common l r = common l' r'.
Proof. exact Proof.LeakPrograms.eq_shows. Qed.
Print Assumptions C59_equality_refuted.

(** ** Cases *)
Example fnv_shows : trace (observed FNV32_1a false [On 0 (AddData [97; 98; 99])]) = [Branch true; Branch true; Branch true; Branch false].
Proof. vm_compute. reflexivity. Qed.

(** a program with three objects, on two messages *)
Definition wild (d : list N) : list cmd :=
  [On 0 (AddData d); CopyTo 1 0; On 0 Finalize; On 0 ToArray; On 1 (AddData d); On 1 Finalize; On 2 (AddData [1]); On 1 StdHash; On 0 Reset].
Example wild_shape : same_shape (wild [1; 2; 3]) (wild [7; 8; 9]) /\ no_text (wild [1; 2; 3]).
Proof.
  split; [repeat constructor|]. intros i H. cbn in H. repeat (destruct H as [H|H]; [discriminate H|]). exact H.
Qed.
Example sha2_wild : trace (observed SHA2_256 true (wild [1; 2; 3])) = trace (observed SHA2_256 true (wild [7; 8; 9])).
Proof. apply C59_library_partial; [reflexivity|apply wild_shape..]. Qed.
(** SipHash, three bytes into a new object: the buffer is empty; there is less than a block; then for each byte the loop over
    the range, no check in a release build, the loop of fill(), the byte written; the end of the range *)
Example siphash_shows : trace (observed (SipHash 1 2) false [On 0 (AddData [5; 6; 7])]) =
  [Branch false; Branch true] ++ flat_map (fun i => [Branch true; Branch false; Branch true; Write i; Branch false]) [0; 1; 2]%nat ++ [Branch false].
Proof. vm_compute. reflexivity. Qed.

(** CRC-32 of one byte 1: no block; the loop; the byte; the row 0; the entry 0xFF ^ 1; the end of the loop *)
Example crc_shows : trace (observed CRC_32 false [On 0 (AddData [1]); On 0 Finalize]) =
  [Branch false; Branch true; Read 0; Read 0; Read 254; Branch false].
Proof. vm_compute. reflexivity. Qed.
(** two messages of one byte, told apart *)
Example tables_differ : Forall (fun a =>
    trace (observed a true [On 0 (AddData [201]); On 0 Finalize]) <> trace (observed a true [On 0 (AddData [202]); On 0 Finalize]))
  [CRC_32; MD2; Tiger1_128; Tiger1_160; Tiger1_192; Tiger2_128; Tiger2_160; Tiger2_192; Whirlpool].
Proof.
  assert (forall b, b < 256 -> span_ok [b]) as K by (intros b Hb; split; [repeat constructor; exact Hb|reflexivity]).
  repeat (apply Forall_cons; [intros E; apply C59_tables_refuted in E; [discriminate E|reflexivity|now apply K|now apply K|reflexivity]|]). apply Forall_nil.
Qed.
Example text_differs : trace (LkStream.to_string [0x1a]) <> trace (LkStream.to_string [0x12]) /\ trace (LkStream.to_string [0x34]) = trace (LkStream.to_string [0x12]).
Proof. vm_compute. split; [discriminate|reflexivity]. Qed.
(** the third byte is compared or is not *)
Example equality_differs :
  trace (LeakLibrary.eq_loop 3 0 [1; 2; 3] [1; 2; 9]) <> trace (LeakLibrary.eq_loop 3 0 [1; 2; 3] [1; 7; 9]) /\
  common [1; 2; 3] [1; 2; 9] = 2%nat /\ common [1; 2; 3] [1; 7; 9] = 1%nat.
Proof. vm_compute. split; [discriminate|split; reflexivity]. Qed.
