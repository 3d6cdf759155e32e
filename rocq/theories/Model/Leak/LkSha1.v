(** Generated by tools/gen_leak.py from Model/Sha1.v: the same functions with the array indices and branches they show. *)
From Verif.Base Require Import Res CWord.
From Coq Require Import List NArith Arith Bool.
From Verif.Model Require Import Buffer Stream Api Call.
From Verif.Model.Gen Require Import Sha1Calls.
From Verif.Model Require Import Sha1.
From Verif.Base Require Import Leak.
From Verif.Model.Leak Require Import LkBuffer LkStream LkCall.
Import ListNotations.
Local Open Scope N_scope.
Section Rounds.
  Variable m : list N.
  (* memory at the block *)
(** wTable[t] = m[t]      sha1.h:465 *)
  Definition w_load (t : nat) (w : list N) : res N := load_be 4 m t.
  (** rotl((wTable[t - 3] ^ wTable[t - 8] ^ wTable[t - 14] ^ wTable[t - 16]), 1)      sha1.h:492, 507 *)
  Definition w_std (t : nat) (w : list N) : res N :=
    let! w3 := aget_back w t 3 in
    let! w8 := aget_back w t 8 in
    let! w14 := aget_back w t 14 in
    let! w16 := aget_back w t 16 in
    Ok (rotl 32 (N.lxor (N.lxor (N.lxor w3 w8) w14) w16) 1).
  (** rotl((wTable[t - 6] ^ wTable[t - 16] ^ wTable[t - 28] ^ wTable[t - 32]), 2)      sha1.h:530, 549, 580 *)
  Definition w_alt (t : nat) (w : list N) : res N :=
    let! w6 := aget_back w t 6 in
    let! w16 := aget_back w t 16 in
    let! w28 := aget_back w t 28 in
    let! w32 := aget_back w t 32 in
    Ok (rotl 32 (N.lxor (N.lxor (N.lxor w6 w16) w28) w32) 2).
  (** the three round functions as written      sha1.h:466, 508, 550 *)
  Definition f1 (b c d : N) : N := N.lxor (N.land b (N.lxor c d)) d.
  Definition f2 (b c d : N) : N := N.lxor (N.lxor b c) d.
  Definition f3 (b c d : N) : N := N.lor (N.land b c) (N.land d (N.lor b c)).
  (** the common shape of the macros:
        wTable[t] = W;
        e = rotl(a, 5) + F + e + wTable[t] + K;
        b = rotl(b, 30);                                   sha1.h:464-467 etc. *)
  Definition round (W : nat -> list N -> res N) (F : N -> N -> N -> N) (K : N)
      (a b c d e t : nat) (l : locals) : res locals :=
    let (r, w) := l in
    let! wt := W t w in
    let! w := aset w t wt in
    let! va := aget r a in
    let! vb := aget r b in
    let! vc := aget r c in
    let! vd := aget r d in
    let! ve := aget r e in
    let! wt := aget w t in
    let! r := aset r e (uadd 32 (uadd 32 (uadd 32 (uadd 32 (rotl 32 va 5) (F vb vc vd)) ve) wt) K) in
    let! vb := aget r b in
    let! r := aset r b (rotl 32 vb 30) in
    Ok (r, w).
  (** macro dispatch      sha1.h:464, 491, 506, 529, 548, 579.  The default case is never
      reached: the generated list has five registers and one argument in every call. *)
  Definition exec_call (c : call fn) (l : locals) : res locals :=
    match c_regs c, c_args c with
    | [a; b; cc; d; e], [t] =>
        let t := N.to_nat t in
        match c_fn c with
        | sha1Round1 => round w_load f1 0x5A827999 a b cc d e t l
        | sha1Round1a => round w_std f1 0x5A827999 a b cc d e t l
        | sha1Round2 => round w_std f2 0x6ED9EBA1 a b cc d e t l
        | sha1Round2a => round w_alt f2 0x6ED9EBA1 a b cc d e t l
        | sha1Round3 => round w_alt f3 0x8F1BBCDC a b cc d e t l
        | sha1Round4 => round w_alt f2 0xCA62C1D6 a b cc d e t l
        end
    | _, _ => Ub OutOfFuel
    end.
End Rounds.
(** the loop body of addDataImpl      sha1.h:451-612 *)
Definition compress (m : list N) (st : list N) : res (list N) :=
  let! a := aget st 0 in
  let! b := aget st 1 in
  let! c := aget st 2 in
  let! d := aget st 3 in
  let! e := aget st 4 in
  let! l := foldM (exec_call m) calls ([a; b; c; d; e], repeat 0 80) in
  (* m_state[i] += a..e *)
  for_ 0 5 (fun i st =>
    let! s := aget st i in
    let! r := aget (fst l) i in
    aset st i (uadd 32 s r)) st.
(** toArray()      sha1.h:354-368 *)
Definition toArray (st : list N) : res (list N) :=
  store_array 20 (flat_map (word_bytes_be 4) st).
