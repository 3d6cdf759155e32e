(** Generated by tools/gen_leak.py from Model/HasV.v: the same functions with the array indices and branches they show. *)
From Verif.Base Require Import Res CWord.
From Coq Require Import List NArith Arith Bool.
From Verif.Model Require Import Stream Api Call.
From Verif.Model.Gen Require Import HasVCalls HasVTables.
From Verif.Model Require Import HasV.
From Verif.Base Require Import Leak.
From Verif.Model.Leak Require Import LkStream LkCall.
Import ListNotations.
Local Open Scope N_scope.
Definition func (n : N) : res (N -> N -> N -> N -> N) :=
  match n with 0 => Ok f0 | 1 => Ok f1 | 2 => Ok f2 | 3 => Ok f3 | 4 => Ok f4 | _ => Ub OutOfFuel end.
(** xTable, yTable: the first 16 of their 20 entries are set, the others are not
    initialised      has_v_320.cpp:242-248 *)
Definition fill_table (m : list N) (from : nat) : res (list (option N)) :=
  for_ 0 16 (fun i x => let! v := load_le 4 m (from + i) in aset x i (Some v)) (repeat None 20).
(** table[l[i]] ^ table[l[i + 1]] ^ table[l[i + 2]] ^ table[l[i + 3]]      has_v_320.cpp:262-265 *)
Definition xor4 (table : list (option N)) (l : list N) (i : nat) : res N :=
  let! a := aget l i in let! p := iget table (N.to_nat a) in
  let! b := aget l (i + 1) in let! q := iget table (N.to_nat b) in
  let! c := aget l (i + 2) in let! r := iget table (N.to_nat c) in
  let! d := aget l (i + 3) in let! s := iget table (N.to_nat d) in
  Ok (N.lxor (N.lxor (N.lxor p q) r) s).
(** extendTable      has_v_320.cpp:250-266 *)
Definition extend (round : nat) (table : list (option N)) : res (list (option N)) :=
  let! l := aget lut round in
  let! v := xor4 table l 0 in let! table := aset table 16 (Some v) in
  let! v := xor4 table l 4 in let! table := aset table 17 (Some v) in
  let! v := xor4 table l 8 in let! table := aset table 18 (Some v) in
  let! v := xor4 table l 12 in aset table 19 (Some v).
(** lineLeft, lineRight      has_v_320.cpp:275-279, 286-290 *)
Definition line (table : list (option N)) (f : N -> N -> N -> N -> N) (k : N) (j : nat) (p : list N)
    : res (list (nat * N)) :=
  match p with
  | [a; b; c; d; e] =>
      let! s := aget sTable (j mod 20) in
      let! n := aget mTable j in
      let! x := iget table (N.to_nat n) in
      Ok [(4%nat, uadd 32 (uadd 32 (uadd 32 (rotl 32 a s) (f b c d e)) x) k); (1%nat, rotl 32 b 30)]
  | _ => Ub OutOfFuel
  end.
(** swapChainVars      has_v_320.cpp:292-299 *)
Definition swapVars (r : list N) : res (list N) :=
  match r with
  | [a; b; c; d; e; f; g; h; i; j] => Ok [f; g; h; i; j; a; b; c; d; e]
  | _ => Ub OutOfFuel
  end.
Definition exec_call (c : call fn) (s : vars) : res vars :=
  match c_fn c, c_args c with
  | extendTable, [5; r] => let! x := extend (N.to_nat r) (v_x s) in Ok (mkVars (v_regs s) x (v_y s))
  | extendTable, [6; r] => let! y := extend (N.to_nat r) (v_y s) in Ok (mkVars (v_regs s) (v_x s) y)
  | lineLeft, [f; k; j] =>
      let! f := func f in
      let! r := call_regs (line (v_x s) f k (N.to_nat j)) (c_regs c) (v_regs s) in Ok (mkVars r (v_x s) (v_y s))
  | lineRight, [f; k; j] =>
      let! f := func f in
      let! r := call_regs (line (v_y s) f k (N.to_nat j)) (c_regs c) (v_regs s) in Ok (mkVars r (v_x s) (v_y s))
  | swapChainVars, [] => let! r := swapVars (v_regs s) in Ok (mkVars r (v_x s) (v_y s))
  | _, _ => Ub OutOfFuel
  end.
(** the loop body of addDataImpl      has_v_320.cpp:205-805; of the two versions of the
    rounds the second is compiled (#if 0 in line 302, #else in line 549) *)
Definition compress (m : list N) (st : list N) : res (list N) :=
  let! x := fill_table m 0 in
  let! y := fill_table m 16 in
  let! regs := mapM (aget st) (seq 0 10) in
  let! s := foldM exec_call calls (mkVars regs x y) in
  (* m_h[i] += a .. j      793-802 *)
  for_ 0 10 (fun i st =>
    let! s' := aget st i in
    let! v := aget (v_regs s) i in
    aset st i (uadd 32 s' v)) st.
(** addDataImpl: assert, m_sizeCounter += data.size(), block loop      has_v_320.cpp:197-205 *)
Definition impl (dbg : bool) : list N -> MD (list N) -> res (MD (list N)) := md_impl 128 dbg compress.
(** addData, after the first if      has_v_320.cpp:176-188 *)
(** elements written behind the end of a std::vector *)
Definition vec_append (d : list N) (buf : list N) : res (list N) :=
  foldM (fun v b => tell (Write (length b)) (Ok (b ++ [v]))) d buf.

Definition addData_tail (dbg : bool) (data buf : list N) (s : MD (list N)) : res Obj :=
  let dataSize := length data in
  if! (dataSize <? 128)%nat then let! buf := vec_append data [] in Ok (buf, s)
  else
    let len := (dataSize - dataSize mod 128)%nat in
    let! d := span_first len data in
    let! s := impl dbg d s in
    if! (len <? dataSize)%nat then let! buf := vec_append (skipn len data) [] in Ok (buf, s) else Ok (buf, s).
(** addData(Span<const Byte>)      has_v_320.cpp:157-189; BLOCK_SIZE - m_buffer.size() is
    unsigned and would wrap if the buffer held more than BLOCK_SIZE bytes *)
Definition addData (dbg : bool) (inData : list N) (o : Obj) : res Obj :=
  let (buf, s) := o in
  if! negb (Nat.eqb (length buf) 0) then
    let len := if (length buf <=? 128)%nat then min (128 - length buf) (length inData) else length inData in
    let! buf := vec_append (firstn len inData) buf in
    if! (length buf <? 128)%nat then Ok (buf, s)
    else
      let! s := impl dbg buf s in
      let! data := span_subspan len inData in
      addData_tail dbg data [] s
  else addData_tail dbg inData buf s.
(** m_buffer[m_buffer.size() - k + i] = v *)
Definition set_from_end (k i : nat) (v : N) (b : list N) : res (list N) :=
  if! (length b + i <? k)%nat then Ub OobWrite else aset b (length b + i - k) v.
(** finalize()      has_v_320.cpp:90-118 *)
Definition finalize (dbg : bool) (o : Obj) : res Obj :=
  let (buf, s) := o in
  let cnt := uadd 64 (md_cnt s) (N.of_nat (length buf)) in
  let! buf := vec_append [128] buf in
  let len := pad_len 128 9 (length buf) in
  let! buf := vec_append (repeat 0 (len + 9)) buf in
  let! buf := set_from_end 9 0 (320 / 8) buf in
  let bits := umul 64 cnt 8 in
  let L := ror 32 bits 0 in
  let H := ror 32 bits 32 in
  let! buf := for_ 0 4 (fun i b =>
    let! b := set_from_end 8 i (ror 8 L (8 * N.of_nat i)) b in
    set_from_end 4 i (ror 8 H (8 * N.of_nat i)) b) buf in
  let! s := impl dbg buf (mkMD cnt (md_h s)) in
  Ok ([], s).
(** toArray()      has_v_320.cpp:141-155; toVector() (135-139) copies it *)
Definition toArray (o : Obj) : res (list N) :=
  store_array 40 (flat_map (word_bytes_le 4) (md_h (snd o))).
