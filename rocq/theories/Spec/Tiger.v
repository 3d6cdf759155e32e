(** Tiger as in R. Anderson, E. Biham, "Tiger: A Fast New Hash Function" (1996); Tiger2
    differs only in the first padding byte. *)
From Coq Require Import NArith List.
From Verif.Spec Require Import Words Merkle TigerSbox.
Import ListNotations.
Local Open Scope N_scope.

(** byte i of a word, byte 0 being the least significant *)
Definition byte (i c : N) : N := (c / 2 ^ (8 * i)) mod 256.
Definition box (t : list N) (i c : N) : N := nth (N.to_nat (byte i c)) t 0.

Definition even (c : N) : N := N.lxor (N.lxor (N.lxor (box t1 0 c) (box t2 2 c)) (box t3 4 c)) (box t4 6 c).
Definition odd (c : N) : N := N.lxor (N.lxor (N.lxor (box t4 1 c) (box t3 3 c)) (box t2 5 c)) (box t1 7 c).

(** round(a,b,c,x,mul); the next round is called with (b,c,a), so the result is given in
    that order *)
Definition round (m : N) (v : N * N * N) (x : N) : N * N * N :=
  let '(a, b, c) := v in
  let c := N.lxor c x in
  (mul 64 (add 64 b (odd c)) m, c, sub 64 a (even c)).

(** eight rounds; afterwards the triple is in the order (c,a,b) in which the next pass is called *)
Definition pass (m : N) (v : N * N * N) (X : list N) : N * N * N := fold_left (round m) X v.

Definition key_schedule (X : list N) : list N :=
  match X with
  | [x0; x1; x2; x3; x4; x5; x6; x7] =>
      let x0 := sub 64 x0 (N.lxor x7 0xA5A5A5A5A5A5A5A5) in
      let x1 := N.lxor x1 x0 in
      let x2 := add 64 x2 x1 in
      let x3 := sub 64 x3 (N.lxor x2 (SHL 64 19 (compl 64 x1))) in
      let x4 := N.lxor x4 x3 in
      let x5 := add 64 x5 x4 in
      let x6 := sub 64 x6 (N.lxor x5 (SHR 23 (compl 64 x4))) in
      let x7 := N.lxor x7 x6 in
      let x0 := add 64 x0 x7 in
      let x1 := sub 64 x1 (N.lxor x0 (SHL 64 19 (compl 64 x7))) in
      let x2 := N.lxor x2 x1 in
      let x3 := add 64 x3 x2 in
      let x4 := sub 64 x4 (N.lxor x3 (SHR 23 (compl 64 x2))) in
      let x5 := N.lxor x5 x4 in
      let x6 := add 64 x6 x5 in
      let x7 := sub 64 x7 (N.lxor x6 0x0123456789ABCDEF) in
      [x0; x1; x2; x3; x4; x5; x6; x7]
  | _ => X
  end.

Definition passes (v : N * N * N) (X : list N) : N * N * N :=
  let X2 := key_schedule X in
  let X3 := key_schedule X2 in
  pass 9 (pass 7 (pass 5 v X) X2) X3.

Definition feed_forward (h v : N * N * N) : N * N * N :=
  let '(aa, bb, cc) := h in
  let '(a, b, c) := v in
  (N.lxor a aa, sub 64 b bb, add 64 c cc).

Definition compress (h : N * N * N) (block : list N) : N * N * N :=
  feed_forward h (passes h (le_words 8 block)).

Definition iv : N * N * N := (0x0123456789ABCDEF, 0xFEDCBA9876543210, 0xF096A5B4C3B2E187).

Definition digest (h : N * N * N) : list N :=
  let '(a, b, c) := h in le_bytes 8 a ++ le_bytes 8 b ++ le_bytes 8 c.

Definition tiger_with (padbyte : N) (m : list N) : list N :=
  digest (chain 64 compress iv (pad 64 8 padbyte (le_bytes 8) m)).
Definition tiger (m : list N) : list N := tiger_with 0x01 m.
Definition tiger2 (m : list N) : list N := tiger_with 0x80 m.

(** Tiger/128 and Tiger/160 are the first bytes of the 192-bit value *)
Definition truncated (n : nat) (hash : list N -> list N) (m : list N) : list N := firstn n (hash m).
