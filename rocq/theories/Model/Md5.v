(** Model of md5.h.  The unused template t<i>() (md5.h:282-286) is not modelled. *)
From Coq Require Import List NArith Arith Bool.
From Verif.Base Require Import Res CWord.
From Verif.Model Require Import Buffer Stream Api Call.
From Verif.Model.Gen Require Import Md5Calls.
Import ListNotations.
Local Open Scope N_scope.

(** m_state after reset()      md5.h:296-305 *)
Definition iv : list N := [0x67452301; 0xefcdab89; 0x98badcfe; 0x10325476].

(** f, g, h, ii      md5.h:458-473 *)
Definition f (x y z : N) : N := N.lxor (N.land x (N.lxor y z)) z.
Definition g (x y z : N) : N := N.lxor y (N.land (N.lxor x y) z).
Definition h (x y z : N) : N := N.lxor (N.lxor x y) z.
Definition ii (x y z : N) : N := N.lxor y (N.lor x (unot 32 z)).

(** the function arguments as numbered in the generated list: f, g, h, ii *)
Definition func (n : N) : res (N -> N -> N -> N) :=
  match n with 0 => Ok f | 1 => Ok g | 2 => Ok h | 3 => Ok ii | _ => Ub OutOfFuel end.

Section Rounds.
  Variable m : list N.   (* memory at the block *)

  (** a = b + rotl((a + func(b, c, d) + x[k] + t), s)      md5.h:480-483 *)
  Definition round (F : N -> N -> N -> N) (k : nat) (s t : N) (p : list N) : res (list (nat * N)) :=
    match p with
    | [a; b; c; d] =>
        let! xk := load_le 4 m k in
        Ok [(0%nat, uadd 32 b (rotl 32 (uadd 32 (uadd 32 (uadd 32 a (F b c d)) xk) t) s))]
    | _ => Ub OutOfFuel
    end.

  Definition exec_call (c : call fn) (r : list N) : res (list N) :=
    match c_args c with
    | [fn; k; s; t] =>
        let! F := func fn in
        call_regs (round F (N.to_nat k) s t) (c_regs c) r
    | _ => Ub OutOfFuel
    end.
End Rounds.

(** the loop body of addDataImpl      md5.h:454-557 *)
Definition compress (m : list N) (st : list N) : res (list N) :=
  let! a := aget st 0 in
  let! b := aget st 1 in
  let! c := aget st 2 in
  let! d := aget st 3 in
  let! r := foldM (exec_call m) calls [a; b; c; d] in
  (* m_state[i] += a..d *)
  for_ 0 4 (fun i st =>
    let! s := aget st i in
    let! v := aget r i in
    aset st i (uadd 32 s v)) st.

(** toArray()      md5.h:359-373 *)
Definition toArray (st : list N) : res (list N) :=
  store_array 16 (flat_map (word_bytes_le 4) st).

Definition cls (dbg : bool) : HashClass :=
  md_class 64 dbg 128 write_len_le compress iv toArray.
