(** MD2 as in RFC 1319 (with the erratum: the checksum is updated with xor). *)
From Coq Require Import NArith Arith List.
From Verif.Spec Require Import Words.
Import ListNotations.
Local Open Scope N_scope.

(** PI_SUBST, RFC 1319 appendix A.3 *)
Definition PI_SUBST : list N :=
  [41; 46; 67; 201; 162; 216; 124; 1; 61; 54; 84; 161; 236; 240; 6; 19;
   98; 167; 5; 243; 192; 199; 115; 140; 152; 147; 43; 217; 188; 76; 130; 202;
   30; 155; 87; 60; 253; 212; 224; 22; 103; 66; 111; 24; 138; 23; 229; 18;
   190; 78; 196; 214; 218; 158; 222; 73; 160; 251; 245; 142; 187; 47; 238; 122;
   169; 104; 121; 145; 21; 178; 7; 63; 148; 194; 16; 137; 11; 34; 95; 33;
   128; 127; 93; 154; 90; 144; 50; 39; 53; 62; 204; 231; 191; 247; 151; 3;
   255; 25; 48; 179; 72; 165; 181; 209; 215; 94; 146; 42; 172; 86; 170; 198;
   79; 184; 56; 210; 150; 164; 125; 182; 118; 252; 107; 226; 156; 116; 4; 241;
   69; 157; 112; 89; 100; 113; 135; 32; 134; 91; 207; 101; 230; 45; 168; 2;
   27; 96; 37; 173; 174; 176; 185; 246; 28; 70; 97; 105; 52; 64; 126; 15;
   85; 71; 163; 35; 221; 81; 175; 58; 195; 92; 249; 206; 186; 197; 234; 38;
   44; 83; 13; 110; 133; 40; 132; 9; 211; 223; 205; 244; 65; 129; 77; 82;
   106; 220; 55; 200; 108; 193; 171; 250; 36; 225; 123; 8; 12; 189; 177; 74;
   120; 136; 149; 139; 227; 99; 232; 109; 233; 203; 213; 254; 59; 0; 29; 57;
   242; 239; 183; 14; 102; 88; 208; 228; 166; 119; 114; 248; 235; 117; 75; 10;
   49; 68; 80; 180; 143; 237; 31; 26; 219; 153; 141; 51; 159; 17; 131; 20].
Definition S (x : N) : N := nth (N.to_nat x) PI_SUBST 0.

(** 3.1: i bytes of value i, so that the length becomes a multiple of 16 *)
Definition pad (m : list N) : list N :=
  let i := (16 - length m mod 16)%nat in m ++ repeat (N.of_nat i) i.

(** 3.2: one block of the checksum; L is the last checksum byte computed *)
Fixpoint mix_checksum (L : N) (C block : list N) : list N :=
  match C, block with
  | c :: C', b :: block' => let c' := N.lxor c (S (N.lxor b L)) in c' :: mix_checksum c' C' block'
  | _, _ => []
  end.
Definition checksum_block (C block : list N) : list N := mix_checksum (last C 0) C block.
Definition checksum (padded : list N) : list N :=
  fold_left checksum_block (pieces 16 padded) (repeat 0 16).

(** 3.4: one pass over the 48-byte buffer, and 18 of them *)
Fixpoint pass (t : N) (X : list N) : list N :=
  match X with
  | [] => []
  | x :: X' => let x' := N.lxor x (S t) in x' :: pass x' X'
  end.
Definition round (st : list N * N) (j : nat) : list N * N :=
  let X := pass (snd st) (fst st) in (X, (last X 0 + N.of_nat j) mod 256).
Definition absorb_block (X block : list N) : list N :=
  let head := firstn 16 X in
  fst (fold_left round (seq 0 18) (head ++ block ++ map (fun '(a, b) => N.lxor a b) (combine block head), 0)).

(** 3.5: the digest is the first sixteen bytes *)
Definition md2 (m : list N) : list N :=
  let p := pad m in
  firstn 16 (fold_left absorb_block (pieces 16 (p ++ checksum p)) (repeat 0 48)).
