(** Generated by tools/gen_leak.py from Model/Sha2.v: the same functions with the array indices and branches they show. *)
From Verif.Base Require Import Res CWord.
From Coq Require Import List NArith Arith Bool.
From Verif.Model Require Import Buffer Stream Api.
From Verif.Model.Gen Require Import Sha2Tables.
From Verif.Model Require Import Sha2.
From Verif.Base Require Import Leak.
From Verif.Model.Leak Require Import LkBuffer LkStream.
Import ListNotations.
Local Open Scope N_scope.
Section Core.
  Variable w : N.
  (* uint32_t or uint64_t *)
  Variable nb : nat.
  (* sizeof of it *)
  Variable rounds : nat.
  (* 64 or 80 *)
  Variables ssig0 ssig1 bsig0 bsig1 : N -> N.
  Variable kTable : list N.
  (** ch, maj      sha2_256.h:516-523, sha2_512.h:587-594 *)
  Definition ch (x y z : N) : N := N.lxor (N.land x (N.lxor y z)) z.
  Definition maj (x y z : N) : N := N.lor (N.land x (N.lor y z)) (N.land y z).
  (** the two loops that fill wTable      sha2_256.h:495-499, sha2_512.h:566-570 *)
  Definition fill_w (m : list N) : res (list N) :=
    let! wt := for_ 0 16 (fun t wt => let! x := load_be nb m t in aset wt t x) (repeat 0 rounds) in
    for_ 16 (rounds - 16) (fun t wt =>
      let! w2 := aget_back wt t 2 in
      let! w7 := aget_back wt t 7 in
      let! w15 := aget_back wt t 15 in
      let! w16 := aget_back wt t 16 in
      aset wt t (uadd w (uadd w (uadd w (ssig1 w2) w7) (ssig0 w15)) w16)) wt.
  (** the lambda round      sha2_256.h:533-538, sha2_512.h:604-609; the arguments a..h are
      references, given here as indices into the list of the eight local variables *)
  Definition round (wt : list N) (a b c d e f g h : nat) (t : nat) (r : list N) : res (list N) :=
    let! va := aget r a in
    let! vb := aget r b in
    let! vc := aget r c in
    let! vd := aget r d in
    let! ve := aget r e in
    let! vf := aget r f in
    let! vg := aget r g in
    let! vh := aget r h in
    let! kt := aget kTable t in
    let! wv := aget wt t in
    let t1 := uadd w (uadd w (uadd w (uadd w vh (bsig1 ve)) (ch ve vf vg)) kt) wv in
    let t2 := uadd w (bsig0 va) (maj va vb vc) in
    let! r := aset r h t1 in
    let! vd := aget r d in
    let! vh := aget r h in
    let! r := aset r d (uadd w vd vh) in
    let! vh := aget r h in
    aset r h (uadd w vh t2).
  (** the round loop with its eight calls      sha2_256.h:540-550, sha2_512.h:611-621 *)
  Definition eight (wt : list N) (t : nat) (r : list N) : res (list N) :=
    let a := 0%nat in let b := 1%nat in let c := 2%nat in let d := 3%nat in
    let e := 4%nat in let f := 5%nat in let g := 6%nat in let h := 7%nat in
    let! r := round wt a b c d e f g h (8 * t + 0) r in
    let! r := round wt h a b c d e f g (8 * t + 1) r in
    let! r := round wt g h a b c d e f (8 * t + 2) r in
    let! r := round wt f g h a b c d e (8 * t + 3) r in
    let! r := round wt e f g h a b c d (8 * t + 4) r in
    let! r := round wt d e f g h a b c (8 * t + 5) r in
    let! r := round wt c d e f g h a b (8 * t + 6) r in
    round wt b c d e f g h a (8 * t + 7) r.
  (** the loop body of addDataImpl      sha2_256.h:481-560, sha2_512.h:552-631 *)
  Definition compress (m : list N) (st : list N) : res (list N) :=
    let! wt := fill_w m in
    let! r := mapM (aget st) (seq 0 8) in
    let! r := for_ 0 (rounds / 8) (eight wt) r in
    (* m_h[i] += a..h *)
    for_ 0 8 (fun i st =>
      let! s := aget st i in
      let! x := aget r i in
      aset st i (uadd w s x)) st.
End Core.
(** sha2_256.h:487-494, 524-531 *)
Definition compress32 : list N -> list N -> res (list N) :=
  compress 32 4 64
    (fun x => xor3 (rotr 32 x 7) (rotr 32 x 18) (ror 32 x 3))
    (fun x => xor3 (rotr 32 x 17) (rotr 32 x 19) (ror 32 x 10))
    (fun x => xor3 (rotr 32 x 2) (rotr 32 x 13) (rotr 32 x 22))
    (fun x => xor3 (rotr 32 x 6) (rotr 32 x 11) (rotr 32 x 25))
    kTable32.
(** sha2_512.h:558-565, 595-602 *)
Definition compress64 : list N -> list N -> res (list N) :=
  compress 64 8 80
    (fun x => xor3 (rotr 64 x 1) (rotr 64 x 8) (ror 64 x 7))
    (fun x => xor3 (rotr 64 x 19) (rotr 64 x 61) (ror 64 x 6))
    (fun x => xor3 (rotr 64 x 28) (rotr 64 x 34) (rotr 64 x 39))
    (fun x => xor3 (rotr 64 x 14) (rotr 64 x 18) (rotr 64 x 41))
    kTable64.
(** toArray(): the span [state] holds the first [n] words of m_h
    sha2_224.h:386-400 (7 words, 28 bytes), sha2_256.h:386-400 (8, 32),
    sha2_384.h:457-471 (6, 48), sha2_512.h:457-471 (8, 64), sha2_512_256.h:457-471 (4, 32) *)
Definition toArray (nb size n : nat) (st : list N) : res (list N) :=
  store_array size (flat_map (word_bytes_be nb) (firstn n st)).
(** sha2_512_224.h:457-475: three words, then four bytes of the fourth *)
Definition toArray_512_224 (st : list N) : res (list N) :=
  let! m_h3 := aget st 3 in
  store_array 28 (flat_map (word_bytes_be 8) (firstn 3 st) ++
    [ror 8 m_h3 56; ror 8 m_h3 48; ror 8 m_h3 40; ror 8 m_h3 32]).
