(** Model of sm3.h. *)
From Coq Require Import List NArith Arith Bool.
From Verif.Base Require Import Res CWord.
From Verif.Model Require Import Buffer Stream Api Call.
From Verif.Model.Gen Require Import Sm3Calls.
Import ListNotations.
Local Open Scope N_scope.

(** m_v after reset()      sm3.h:290-303 *)
Definition iv : list N :=
  [0x7380166f; 0x4914b2b9; 0x172442d7; 0xda8a0600; 0xa96f30bc; 0x163138aa; 0xe38dee4d; 0xb0fb0e4e].

(** permutation1, permutation0      sm3.h:456-459, 479-482 *)
Definition permutation1 (x : N) : N := N.lxor (N.lxor x (rotl 32 x 15)) (rotl 32 x 23).
Definition permutation0 (x : N) : N := N.lxor (N.lxor x (rotl 32 x 9)) (rotl 32 x 17).

(** expanedMsg      sm3.h:461-468 *)
Definition expand (m : list N) : res (list N) :=
  let! w := for_ 0 16 (fun t w => let! x := load_be 4 m t in aset w t x) (repeat 0 68) in
  for_ 16 52 (fun t w =>
    let! w3 := aget_back w t 3 in
    let! w9 := aget_back w t 9 in
    let! w16 := aget_back w t 16 in
    let! w13 := aget_back w t 13 in
    let! w6 := aget_back w t 6 in
    aset w t (N.lxor (N.lxor (permutation1 (N.lxor (N.lxor (rotl 32 w3 15) w9) w16)) (rotl 32 w13 7)) w6)) w.

(** sm3Round1, sm3Round2      sm3.h:483-497, 515-529 *)
Definition round (w : list N) (FF GG : N -> N -> N -> N) (tTable : N) (t : nat) (p : list N) : res (list (nat * N)) :=
  match p with
  | [a; b; c; d; e; f; g; h] =>
      let! wt := aget w t in
      let! wt4 := aget w (t + 4) in
      let wPrime := N.lxor wt wt4 in
      let tmpA := rotl 32 a 12 in
      let ss1 := rotl 32 (uadd 32 (uadd 32 tmpA e) tTable) 7 in
      let ss2 := N.lxor ss1 tmpA in
      let tt1 := uadd 32 (uadd 32 (uadd 32 (FF a b c) d) ss2) wPrime in
      let tt2 := uadd 32 (uadd 32 (uadd 32 (GG e f g) h) ss1) wt in
      Ok [(1%nat, rotl 32 b 9); (3%nat, tt1); (5%nat, rotl 32 f 19); (7%nat, permutation0 tt2)]
  | _ => Ub OutOfFuel
  end.
Definition xor3 (x y z : N) : N := N.lxor (N.lxor x y) z.
Definition maj (a b c : N) : N := N.lor (N.land a b) (N.land c (N.lor a b)).
Definition ch (e f g : N) : N := N.lxor g (N.land e (N.lxor f g)).

Definition exec_call (w : list N) (c : call fn) (r : list N) : res (list N) :=
  match c_fn c, c_args c with
  | sm3Round1, [k; t] => call_regs (round w xor3 xor3 k (N.to_nat t)) (c_regs c) r
  | sm3Round2, [k; t] => call_regs (round w maj ch k (N.to_nat t)) (c_regs c) r
  | _, _ => Ub OutOfFuel
  end.

(** the loop body of addDataImpl      sm3.h:452-587 *)
Definition compress (m : list N) (st : list N) : res (list N) :=
  let! w := expand m in
  let! regs := mapM (aget st) [0; 1; 2; 3; 4; 5; 6; 7]%nat in
  let! r := foldM (exec_call w) calls regs in
  (* m_v[i] ^= a..h *)
  for_ 0 8 (fun i st =>
    let! s := aget st i in
    let! v := aget r i in
    aset st i (N.lxor s v)) st.

(** toArray()      sm3.h:357-371 *)
Definition toArray (st : list N) : res (list N) :=
  store_array 32 (flat_map (word_bytes_be 4) st).

Definition cls (dbg : bool) : HashClass :=
  md_class 64 dbg 128 write_len_be compress iv toArray.
