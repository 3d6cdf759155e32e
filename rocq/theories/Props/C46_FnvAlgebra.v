(** C46: FNV tells messages apart that differ in one byte, common endings cancel, and what it does not see. *)
From Coq Require Import String List NArith Lia.
From Verif.Base Require Import Res.
From Verif.Spec Require Import Words Client.
From Verif.Model Require Import Api.
From Verif.Tests Require Import Kit.
From Verif.Model Require Fnv.
From Verif.Proof Require FnvAlgebra.
Import ListNotations.

(** [size] 4 and 8, [variant] 0, 1 and 2 are FNV32_0, FNV32_1, FNV32_1a, FNV64_0, FNV64_1 and FNV64_1a *)
Theorem C46_one_byte : forall size variant, size = 4 \/ size = 8 -> variant <= 2 ->
  forall xs ys before b c after, bytes_ok before -> byte_ok b -> byte_ok c -> bytes_ok after -> b <> c ->
  concat xs = before ++ [b] ++ after -> concat ys = before ++ [c] ++ after ->
  hash_chunks (Model.Fnv.cls size variant) xs <> hash_chunks (Model.Fnv.cls size variant) ys.
Proof. exact Proof.FnvAlgebra.one_byte. Qed.
Print Assumptions C46_one_byte.

(** two messages with a common ending have the same digest exactly if they have it without the ending *)
Theorem C46_suffix : forall size variant, size = 4 \/ size = 8 -> variant <= 2 ->
  forall xs ys us vs t, Forall bytes_ok xs -> Forall bytes_ok ys -> bytes_ok t ->
  concat us = concat xs ++ t -> concat vs = concat ys ++ t ->
  (hash_chunks (Model.Fnv.cls size variant) us = hash_chunks (Model.Fnv.cls size variant) vs <->
   hash_chunks (Model.Fnv.cls size variant) xs = hash_chunks (Model.Fnv.cls size variant) ys).
Proof. exact Proof.FnvAlgebra.suffix_cancels. Qed.
Print Assumptions C46_suffix.

(** FNV32_0 and FNV64_0 do not see zero bytes at the beginning *)
Theorem C46_leading_zeros : forall size n xs ys, size = 4 \/ size = 8 -> concat ys = repeat 0%N n ++ concat xs ->
  hash_chunks (Model.Fnv.cls size 0) ys = hash_chunks (Model.Fnv.cls size 0) xs.
Proof. exact Proof.FnvAlgebra.leading_zeros. Qed.
Print Assumptions C46_leading_zeros.

(** finalize() has no effect: a program without its calls shows the same and leaves the same objects *)
Theorem C46_finalize : forall size variant p os s,
  exec (Model.Fnv.cls size variant) p (fun _ => c_new (Model.Fnv.cls size variant)) = Ok (os, s) ->
  exists s1, exec (Model.Fnv.cls size variant) (filter (fun c => match c with On _ Finalize => false | _ => true end) p)
      (fun _ => c_new (Model.Fnv.cls size variant)) = Ok (os, s1) /\ forall i, s1 i = s i.
Proof. exact Proof.FnvAlgebra.finalize_optional. Qed.
Print Assumptions C46_finalize.

Example C46_one_byte_case :
  hash_chunks (Model.Fnv.cls 4 2) [text "hash table"] = Ok (unhex "162ebec5") /\
  hash_chunks (Model.Fnv.cls 4 2) [text "hash "; text "cable"] = Ok (unhex "44f82708").
Proof. vm_compute. auto. Qed.
Example C46_zeros_case :
  hash_chunks (Model.Fnv.cls 8 0) [[0; 0; 0]%N; text "abc"] = Ok (unhex "014984000117d8a0") /\
  hash_chunks (Model.Fnv.cls 8 0) [text "abc"] = Ok (unhex "014984000117d8a0") /\
  hash_chunks (Model.Fnv.cls 8 1) [[0; 0; 0]%N; text "abc"] <> hash_chunks (Model.Fnv.cls 8 1) [text "abc"].
Proof. split; [vm_compute; reflexivity|]. split; [vm_compute; reflexivity|]. vm_compute. discriminate. Qed.
Example C46_finalize_case : exists s,
  exec (Model.Fnv.cls 4 1) [On 0 (AddData (text "a")); On 0 Finalize; On 0 (AddData (text "bc")); On 0 Finalize; On 0 ToArray]
    (fun _ => c_new (Model.Fnv.cls 4 1)) = Ok ([OBytes (unhex "439c2f4b")], s).
Proof. eexists. vm_compute. reflexivity. Qed.
