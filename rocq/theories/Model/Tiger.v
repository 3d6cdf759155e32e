(** Model of tiger.h (template parameters: V = 1, 2 and D = 128, 160, 192). *)
From Coq Require Import List NArith Arith Bool.
From Verif.Base Require Import Res CWord.
From Verif.Model Require Import Buffer Stream Api.
From Verif.Model.Gen Require Import TigerTables.
Import ListNotations.
Local Open Scope N_scope.

(** m_h after reset()      tiger.h:446-454 *)
Definition iv : N * N * N := (0x0123456789ABCDEF, 0xFEDCBA9876543210, 0xF096A5B4C3B2E187).

(** tTable[k][i] *)
Definition tT (k : nat) (i : N) : res N := let! row := aget tTable k in aget row (N.to_nat i).

(** round      tiger.h:625-631 *)
Definition round (a b c x mul : N) : res (N * N * N) :=
  let c := N.lxor c x in
  let! p0 := tT 0 (ror 8 c (0 * 8)) in
  let! p1 := tT 1 (ror 8 c (2 * 8)) in
  let! p2 := tT 2 (ror 8 c (4 * 8)) in
  let! p3 := tT 3 (ror 8 c (6 * 8)) in
  let a := usub 64 a (N.lxor (N.lxor (N.lxor p0 p1) p2) p3) in
  let! q3 := tT 3 (ror 8 c (1 * 8)) in
  let! q2 := tT 2 (ror 8 c (3 * 8)) in
  let! q1 := tT 1 (ror 8 c (5 * 8)) in
  let! q0 := tT 0 (ror 8 c (7 * 8)) in
  let b := uadd 64 b (N.lxor (N.lxor (N.lxor q3 q2) q1) q0) in
  let b := umul 64 b mul in
  Ok (a, b, c).

(** pass      tiger.h:623-641.  Reference parameters are returned in argument order. *)
Definition pass (x : list N) (a b c mul : N) : res (N * N * N) :=
  let! x0 := aget x 0 in
  bind (round a b c x0 mul) (fun '(a, b, c) =>
  let! x1 := aget x 1 in
  bind (round b c a x1 mul) (fun '(b, c, a) =>
  let! x2 := aget x 2 in
  bind (round c a b x2 mul) (fun '(c, a, b) =>
  let! x3 := aget x 3 in
  bind (round a b c x3 mul) (fun '(a, b, c) =>
  let! x4 := aget x 4 in
  bind (round b c a x4 mul) (fun '(b, c, a) =>
  let! x5 := aget x 5 in
  bind (round c a b x5 mul) (fun '(c, a, b) =>
  let! x6 := aget x 6 in
  bind (round a b c x6 mul) (fun '(a, b, c) =>
  let! x7 := aget x 7 in
  bind (round b c a x7 mul) (fun '(b, c, a) =>
  Ok (a, b, c))))))))).

(** keySchedule      tiger.h:643-661 (an array of eight words; all indices are constants 0..7) *)
Definition keySchedule (x : list N) : res (list N) :=
  match x with
  | [x0; x1; x2; x3; x4; x5; x6; x7] =>
      let x0 := usub 64 x0 (N.lxor x7 0xA5A5A5A5A5A5A5A5) in
      let x1 := N.lxor x1 x0 in
      let x2 := uadd 64 x2 x1 in
      let x3 := usub 64 x3 (N.lxor x2 (ushl 64 (unot 64 x1) 19)) in
      let x4 := N.lxor x4 x3 in
      let x5 := uadd 64 x5 x4 in
      let x6 := usub 64 x6 (N.lxor x5 (ushr (unot 64 x4) 23)) in
      let x7 := N.lxor x7 x6 in
      let x0 := uadd 64 x0 x7 in
      let x1 := usub 64 x1 (N.lxor x0 (ushl 64 (unot 64 x7) 19)) in
      let x2 := N.lxor x2 x1 in
      let x3 := uadd 64 x3 x2 in
      let x4 := usub 64 x4 (N.lxor x3 (ushr (unot 64 x2) 23)) in
      let x5 := N.lxor x5 x4 in
      let x6 := uadd 64 x6 x5 in
      let x7 := usub 64 x7 (N.lxor x6 0x0123456789ABCDEF) in
      Ok [x0; x1; x2; x3; x4; x5; x6; x7]
  | _ => Ub OobRead
  end.

(** the loop body of addDataImpl      tiger.h:613-681 *)
Definition compress (m : list N) (h : N * N * N) : res (N * N * N) :=
  let! x := for_ 0 8 (fun j x => let! w := load_le 8 m j in aset x j w) (repeat 0 8) in
  let '(aa, bb, cc) := h in
  bind (pass x aa bb cc 5) (fun '(a, b, c) =>
  let! x := keySchedule x in
  bind (pass x c a b 7) (fun '(c, a, b) =>
  let! x := keySchedule x in
  bind (pass x b c a 9) (fun '(b, c, a) =>
  Ok (N.lxor a aa, usub 64 b bb, uadd 64 c cc)))).

(** toArray()      tiger.h:512-525.  The array has D / 8 bytes, the loop stores 24. *)
Definition toArray (size : nat) (h : N * N * N) : res (list N) :=
  let '(a, b, c) := h in store_array size (flat_map (word_bytes_le 8) [a; b; c]).

(** Tiger<V, D>; [size] is D / 8; (V == 1) ? 1 : (1 << 7)      tiger.h:462 *)
Definition cls (V : nat) (size : nat) (dbg : bool) : HashClass :=
  md_class 64 dbg (if Nat.eqb V 1 then 1 else 128) write_len_le compress iv (toArray size).
