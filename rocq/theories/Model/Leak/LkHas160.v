(** Generated by tools/gen_leak.py from Model/Has160.v: the same functions with the array indices and branches they show. *)
From Verif.Base Require Import Res CWord.
From Coq Require Import List NArith Arith Bool.
From Verif.Model Require Import Buffer Stream Api Call.
From Verif.Model.Gen Require Import Has160Calls Has160Tables.
From Verif.Model Require Import Has160.
From Verif.Base Require Import Leak.
From Verif.Model.Leak Require Import LkBuffer LkStream LkCall.
Import ListNotations.
Local Open Scope N_scope.
(** xTable[lTable[i]]      has_160.h:461, 453-459; xTable is not initialised *)
Definition look (x : list (option N)) (i : nat) : res N :=
  let! j := aget lTable i in
  iget x (N.to_nat j).
(** xTable[j] = x[j] for j < 16      has_160.h:461-463 *)
Definition fill_table (m : list N) : res (list (option N)) :=
  for_ 0 16 (fun j x => let! v := load_le 4 m j in aset x j (Some v)) (repeat None 20).
(** extendXTable      has_160.h:465-471 *)
Definition xor4 (x : list (option N)) (i : nat) : res N :=
  let! p := look x i in
  let! q := look x (i + 1) in
  let! r := look x (i + 2) in
  let! s := look x (i + 3) in
  Ok (N.lxor (N.lxor (N.lxor p q) r) s).
Definition extendTable (round : nat) (x : list (option N)) : res (list (option N)) :=
  let! v := xor4 x (round + 1) in let! x := aset x 16 (Some v) in
  let! v := xor4 x (round + 6) in let! x := aset x 17 (Some v) in
  let! v := xor4 x (round + 11) in let! x := aset x 18 (Some v) in
  let! v := xor4 x (round + 16) in aset x 19 (Some v).
(** round1 .. round4      has_160.h:479-484, 507-512, 535-540, 563-568 *)
Definition round (x : list (option N)) (F : N -> N -> N -> N) (k r s1 : N) (t : nat) (p : list N)
    : res (list (nat * N)) :=
  match p with
  | [a; b; c; d; e] =>
      let f := F b c d in
      let! w := look x t in
      Ok [(4%nat, uadd 32 (uadd 32 (uadd 32 (uadd 32 (rotl 32 a s1) f) e) w) k); (1%nat, rotl 32 b r)]
  | _ => Ub OutOfFuel
  end.
Definition exec_call (c : call fn) (s : list N * list (option N)) : res (list N * list (option N)) :=
  let '(regs, x) := s in
  match c_fn c, c_args c with
  | extendXTable, [r] => let! x := extendTable (N.to_nat r) x in Ok (regs, x)
  | round1, [s1; t] => let! r := call_regs (round x F1 0x00000000 10 s1 (N.to_nat t)) (c_regs c) regs in Ok (r, x)
  | round2, [s1; t] => let! r := call_regs (round x F2 0x5A827999 17 s1 (N.to_nat t)) (c_regs c) regs in Ok (r, x)
  | round3, [s1; t] => let! r := call_regs (round x F3 0x6ED9EBA1 25 s1 (N.to_nat t)) (c_regs c) regs in Ok (r, x)
  | round4, [s1; t] => let! r := call_regs (round x F2 0x8F1BBCDC 30 s1 (N.to_nat t)) (c_regs c) regs in Ok (r, x)
  | _, _ => Ub OutOfFuel
  end.
(** the loop body of addDataImpl      has_160.h:449-596 *)
Definition compress (m : list N) (st : list N) : res (list N) :=
  let! x := fill_table m in
  let! regs := mapM (aget st) [0; 1; 2; 3; 4]%nat in
  let! s := foldM exec_call calls (regs, x) in
  (* m_h[i] += a..e *)
  for_ 0 5 (fun i st =>
    let! s' := aget st i in
    let! v := aget (fst s) i in
    aset st i (uadd 32 s' v)) st.
(** toArray()      has_160.h:354-368 *)
Definition toArray (st : list N) : res (list N) :=
  store_array 20 (flat_map (word_bytes_le 4) st).
