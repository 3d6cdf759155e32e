(** Model of cshake.h: CShake<S, K, P>, CSHAKE_128, CSHAKE_256. *)
From Coq Require Import List NArith ZArith Arith Bool.
From Verif.Base Require Import Res CWord Double.
From Verif.Model Require Import Buffer Stream Api ObjApi.
From Verif.Model Require Keccak.
Import ListNotations.
Local Open Scope N_scope.

Section Encode.
  (** std::log2 on doubles that are integers, with results in units of 2^-52 *)
  Variables (log2 : N -> N) (dbg : bool).

  (** n      cshake.h:135, tuple_hash.h:125:
      (value == 0) ? 1 : static_cast<uint8_t>(std::lround((std::log2(value) / 8) + 0.5)).
      std::log2(uint64_t) converts its argument to double first.  In units of 2^-55 the
      quotient is the same integer as log2(value) in units of 2^-52 (dividing by 8 is exact),
      0.5 is 2^54, and lround rounds halves up (the argument is positive). *)
  Definition encodeCount (value : N) : N :=
    if value =? 0 then 1
    else
      let l := log2 (round53 value) in
      let sum := round53 (l + 2 ^ 54) in
      trunc 8 ((sum + 2 ^ 54) / 2 ^ 55).

  (** for (int i = (n - 1); i >= 0; --i) ret.fill(ror<uint8_t>(value, (8 * i)))
      cshake.h:138-139, tuple_hash.h:128-129 *)
  Fixpoint encodeLoop (k : nat) (value : N) (ret : Buffer) : res Buffer :=
    match k with
    | O => Ok ret
    | S i =>
        if 64 <=? 8 * N.of_nat i then Ub BadShift
        else
          let! ret := buf_fill dbg (ror 8 value (8 * N.of_nat i)) 1 ret in
          encodeLoop i value ret
    end.

  (** leftEncode      cshake.h:133-142 *)
  Definition leftEncode (value : N) : res Buffer :=
    let n := encodeCount value in
    let! ret := buf_of_list dbg 8 [n] in
    encodeLoop (N.to_nat n) value ret.
End Encode.

(** m_customized, m_shake, m_keccak      cshake.h:125-128; an empty unique_ptr is None *)
Record Obj := mkObj { m_customized : bool; m_shake : option (Buffer * Keccak.St); m_keccak : option (Buffer * Keccak.St) }.

(** *p of a unique_ptr *)
Definition deref {A} (p : option A) : res A := match p with Some a => Ok a | None => Ub NullDeref end.

Section CShake.
  (** the rate R of both Keccak classes (equal to P in both instances), P,
      the suffixes of S and K, the build *)
  Variables (log2 : N -> N) (R : nat) (sufS sufK : N) (P : N) (dbg : bool).

  (** apply a member function to the object behind the selected pointer: the pattern
      if (!m_customized) m_shake->f(); else m_keccak->f(); *)
  Definition on_selected (f : N -> Buffer * Keccak.St -> res (Buffer * Keccak.St)) (o : Obj) : res Obj :=
    if negb (m_customized o) then
      let! x := deref (m_shake o) in let! x := f sufS x in Ok (mkObj (m_customized o) (Some x) (m_keccak o))
    else
      let! x := deref (m_keccak o) in let! x := f sufK x in Ok (mkObj (m_customized o) (m_shake o) (Some x)).

  (** addData, addDataImpl      cshake.h:289-294, 324-331 *)
  Definition addData (d : list N) : Obj -> res Obj := on_selected (fun _ => Keccak.addData R dbg d).
  (** reset      cshake.h:236-243 *)
  Definition reset : Obj -> res Obj := on_selected (fun _ x => Ok (Keccak.reset x)).
  (** finalize      cshake.h:245-253 *)
  Definition finalize : Obj -> res Obj := on_selected (fun suf => Keccak.finalize R suf dbg).
  (** toVector      cshake.h:264-271; toString (255-262) and operator T (273-287) format the same bytes *)
  Definition toVector (o : Obj) : res (list N) :=
    if negb (m_customized o) then let! x := deref (m_shake o) in Keccak.toVector x
    else let! x := deref (m_keccak o) in Keccak.toVector x.

  (** processString      cshake.h:161-168 *)
  Definition processString (str : list N) (o : Obj) (length : N) : res (Obj * N) :=
    let! enc := leftEncode log2 dbg (umul 64 (N.of_nat (List.length str)) 8) in
    let! o := addData (buf_span enc) o in
    let length := uadd 64 length (N.of_nat (buf_size enc)) in
    let! o := addData str o in
    let length := uadd 64 length (N.of_nat (List.length str)) in
    Ok (o, length).

  (** bytepadCount      cshake.h:169-172 (size_t arithmetic that does not wrap) *)
  Definition bytepadCount (length target : N) : N := (target - length mod target) mod target.

  Definition is_empty (s : list N) : bool := match s with [] => true | _ => false end.

  (** the constructor      cshake.h:146-186 *)
  Definition construct (digestLength : Z) (name customize : list N) : res Obj :=
    let customized := negb (is_empty name && is_empty customize) in
    if negb customized then
      let! x := Keccak.construct R digestLength in
      Ok (mkObj customized (Some x) None)
    else
      let! x := Keccak.construct R digestLength in
      let o := mkObj customized None (Some x) in
      let! encodedW := leftEncode log2 dbg P in
      let! o := addData (buf_span encodedW) o in
      let length := uadd 64 0 (N.of_nat (buf_size encodedW)) in
      let! (o, length) := processString name o length in
      let! (o, length) := processString customize o length in
      for_ 0 (N.to_nat (bytepadCount length P)) (fun _ o => addData [0] o) o.
End CShake.

(** the copy constructor      cshake.h:188-196 *)
Definition copy_construct (other : Obj) : res Obj :=
  if negb (m_customized other) then
    let! x := deref (m_shake other) in Ok (mkObj (m_customized other) (Some x) None)
  else
    let! x := deref (m_keccak other) in Ok (mkObj (m_customized other) None (Some x)).

(** std::swap of the flags, then of the pointers selected by the new flag of *this
    cshake.h:201-205, 227-231; the results are *this and other *)
Definition swap_selected (this other : Obj) : Obj * Obj :=
  let c := m_customized other in
  let c' := m_customized this in
  if negb c then (mkObj c (m_shake other) (m_keccak this), mkObj c' (m_shake this) (m_keccak other))
  else (mkObj c (m_shake this) (m_keccak other), mkObj c' (m_shake other) (m_keccak this)).

(** the move constructor      cshake.h:198-206 (m_customized starts false: 125) *)
Definition move_construct (other : Obj) : Obj * Obj := swap_selected (mkObj false None None) other.

(** copy assignment of a different object      cshake.h:208-220 *)
Definition copy_assign (this other : Obj) : res Obj :=
  let c := m_customized other in
  if negb c then
    let! _ := deref (m_shake this) in let! x := deref (m_shake other) in Ok (mkObj c (Some x) (m_keccak this))
  else
    let! _ := deref (m_keccak this) in let! x := deref (m_keccak other) in Ok (mkObj c (m_shake this) (Some x)).

(** move assignment of a different object      cshake.h:222-234 *)
Definition move_assign (this other : Obj) : Obj * Obj := swap_selected this other.

(** constructor arguments: digestLength, name, customize *)
Section Class.
  Variables (log2 : N -> N) (R : nat) (sufS sufK : N) (P : N) (dbg : bool).
  Definition cls : ObjClass :=
    {| Args := Z * list N * list N;
       OObj := Obj;
       oc_construct := fun a => let '(l, n, c) := a in construct log2 R sufS sufK P dbg l n c;
       oc_feed := addData R sufS sufK dbg;
       oc_finalize := finalize R sufS sufK dbg;
       oc_reset := reset sufS sufK;
       oc_vector := toVector;
       oc_copy := copy_construct;
       oc_move := move_construct;
       oc_assign := copy_assign;
       oc_massign := move_assign |}.
End Class.

(** CSHAKE_128, CSHAKE_256      cshake.h:345-346; the suffixes of SHAKE_128 and SHAKE_256
    are those of sha3.h:629-630 *)
Definition cls128 (log2 : N -> N) (dbg : bool) := cls log2 (1344 / 8) 0x1F 0x04 (1344 / 8) dbg.
Definition cls256 (log2 : N -> N) (dbg : bool) := cls log2 (1088 / 8) 0x1F 0x04 (1088 / 8) dbg.
