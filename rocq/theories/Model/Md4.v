(** Model of md4.h. *)
From Coq Require Import List NArith Arith Bool.
From Verif.Base Require Import Res CWord.
From Verif.Model Require Import Buffer Stream Api Call.
From Verif.Model.Gen Require Import Md4Calls.
Import ListNotations.
Local Open Scope N_scope.

(** m_state after reset()      md4.h:290-299 *)
Definition iv : list N := [0x67452301; 0xEFCDAB89; 0x98BADCFE; 0x10325476].

Section Rounds.
  Variable m : list N.   (* memory at the block *)

  (** f, g, h      md4.h:459, 481, 503 *)
  Definition f (b c d : N) : N := N.lxor (N.land b (N.lxor c d)) d.
  Definition g (b c d : N) : N := N.lor (N.land b c) (N.land (N.lor b c) d).
  Definition h (b c d : N) : N := N.lxor (N.lxor b c) d.

  (** round1: a = rotl((a + f + x[k]), s)      md4.h:457-461 *)
  Definition round1 (k : nat) (s : N) (p : list N) : res (list (nat * N)) :=
    match p with
    | [a; b; c; d] =>
        let! xk := load_le 4 m k in
        Ok [(0%nat, rotl 32 (uadd 32 (uadd 32 a (f b c d)) xk) s)]
    | _ => Ub OutOfFuel
    end.

  (** round2, round3: a = rotl((a + F + x[k] + K), s)      md4.h:479-483, 501-505 *)
  Definition round23 (F : N -> N -> N -> N) (K : N) (k : nat) (s : N) (p : list N) : res (list (nat * N)) :=
    match p with
    | [a; b; c; d] =>
        let! xk := load_le 4 m k in
        Ok [(0%nat, rotl 32 (uadd 32 (uadd 32 (uadd 32 a (F b c d)) xk) K) s)]
    | _ => Ub OutOfFuel
    end.

  (** call dispatch; the generated list has two arguments in every call *)
  Definition exec_call (c : call fn) (r : list N) : res (list N) :=
    match c_args c with
    | [k; s] =>
        let k := N.to_nat k in
        match c_fn c with
        | Md4Calls.round1 => call_regs (round1 k s) (c_regs c) r
        | Md4Calls.round2 => call_regs (round23 g 0x5A827999 k s) (c_regs c) r
        | Md4Calls.round3 => call_regs (round23 h 0x6ED9EBA1 k s) (c_regs c) r
        end
    | _ => Ub OutOfFuel
    end.
End Rounds.

(** the loop body of addDataImpl      md4.h:449-527 *)
Definition compress (m : list N) (st : list N) : res (list N) :=
  let! a := aget st 0 in
  let! b := aget st 1 in
  let! c := aget st 2 in
  let! d := aget st 3 in
  let! r := foldM (exec_call m) calls [a; b; c; d] in
  (* m_state[i] += aa..dd *)
  for_ 0 4 (fun i st =>
    let! s := aget st i in
    let! v := aget r i in
    aset st i (uadd 32 s v)) st.

(** toArray()      md4.h:353-367 *)
Definition toArray (st : list N) : res (list N) :=
  store_array 16 (flat_map (word_bytes_le 4) st).

Definition cls (dbg : bool) : HashClass :=
  md_class 64 dbg 128 write_len_le compress iv toArray.
