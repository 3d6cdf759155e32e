(** The length counters of the BLAKE classes. *)
From Coq Require Import NArith.
From Verif.Base Require Import CWord.
From Verif.Model Require Import Buffer.
Local Open Scope N_scope.

(** m_sizeCounter: uint64_t (blake1_256.h:249, blake2s.h:249) or Uint128 (blake1_512.h:312,
    blake2.h:312), with +=, and the halves that are used: ror<uint32_t>(_, 0),
    ror<uint32_t>(_, 32) or low(), high() *)
Record Counter := mkCounter { ctr : Type; k_zero : ctr; k_add : ctr -> N -> ctr; k_lo : ctr -> N; k_hi : ctr -> N }.
Definition ctr64 : Counter := mkCounter N 0 (uadd 64) (fun c => ror 32 c 0) (fun c => ror 32 c 32).
Definition ctr128 : Counter := mkCounter Uint128 u128_zero u128_add u_lo u_hi.
