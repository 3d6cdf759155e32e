(** Generated by tools/gen_rounds.py from md4.h: the calls of round1, round2, round3
    in lines 457-521, in source order (last number of each line: source line). *)
From Coq Require Import List NArith.
From Verif.Model Require Import Call.
Import ListNotations.

Inductive fn := round1 | round2 | round3.
Local Notation aa := 0%nat (only parsing).
Local Notation bb := 1%nat (only parsing).
Local Notation cc := 2%nat (only parsing).
Local Notation dd := 3%nat (only parsing).

Definition calls : list (call fn) := [
  Call round1 [aa; bb; cc; dd] [0; 3]%N;   (* 462 *)
  Call round1 [dd; aa; bb; cc] [1; 7]%N;   (* 463 *)
  Call round1 [cc; dd; aa; bb] [2; 11]%N;   (* 464 *)
  Call round1 [bb; cc; dd; aa] [3; 19]%N;   (* 465 *)
  Call round1 [aa; bb; cc; dd] [4; 3]%N;   (* 466 *)
  Call round1 [dd; aa; bb; cc] [5; 7]%N;   (* 467 *)
  Call round1 [cc; dd; aa; bb] [6; 11]%N;   (* 468 *)
  Call round1 [bb; cc; dd; aa] [7; 19]%N;   (* 469 *)
  Call round1 [aa; bb; cc; dd] [8; 3]%N;   (* 470 *)
  Call round1 [dd; aa; bb; cc] [9; 7]%N;   (* 471 *)
  Call round1 [cc; dd; aa; bb] [10; 11]%N;   (* 472 *)
  Call round1 [bb; cc; dd; aa] [11; 19]%N;   (* 473 *)
  Call round1 [aa; bb; cc; dd] [12; 3]%N;   (* 474 *)
  Call round1 [dd; aa; bb; cc] [13; 7]%N;   (* 475 *)
  Call round1 [cc; dd; aa; bb] [14; 11]%N;   (* 476 *)
  Call round1 [bb; cc; dd; aa] [15; 19]%N;   (* 477 *)
  Call round2 [aa; bb; cc; dd] [0; 3]%N;   (* 484 *)
  Call round2 [dd; aa; bb; cc] [4; 5]%N;   (* 485 *)
  Call round2 [cc; dd; aa; bb] [8; 9]%N;   (* 486 *)
  Call round2 [bb; cc; dd; aa] [12; 13]%N;   (* 487 *)
  Call round2 [aa; bb; cc; dd] [1; 3]%N;   (* 488 *)
  Call round2 [dd; aa; bb; cc] [5; 5]%N;   (* 489 *)
  Call round2 [cc; dd; aa; bb] [9; 9]%N;   (* 490 *)
  Call round2 [bb; cc; dd; aa] [13; 13]%N;   (* 491 *)
  Call round2 [aa; bb; cc; dd] [2; 3]%N;   (* 492 *)
  Call round2 [dd; aa; bb; cc] [6; 5]%N;   (* 493 *)
  Call round2 [cc; dd; aa; bb] [10; 9]%N;   (* 494 *)
  Call round2 [bb; cc; dd; aa] [14; 13]%N;   (* 495 *)
  Call round2 [aa; bb; cc; dd] [3; 3]%N;   (* 496 *)
  Call round2 [dd; aa; bb; cc] [7; 5]%N;   (* 497 *)
  Call round2 [cc; dd; aa; bb] [11; 9]%N;   (* 498 *)
  Call round2 [bb; cc; dd; aa] [15; 13]%N;   (* 499 *)
  Call round3 [aa; bb; cc; dd] [0; 3]%N;   (* 506 *)
  Call round3 [dd; aa; bb; cc] [8; 9]%N;   (* 507 *)
  Call round3 [cc; dd; aa; bb] [4; 11]%N;   (* 508 *)
  Call round3 [bb; cc; dd; aa] [12; 15]%N;   (* 509 *)
  Call round3 [aa; bb; cc; dd] [2; 3]%N;   (* 510 *)
  Call round3 [dd; aa; bb; cc] [10; 9]%N;   (* 511 *)
  Call round3 [cc; dd; aa; bb] [6; 11]%N;   (* 512 *)
  Call round3 [bb; cc; dd; aa] [14; 15]%N;   (* 513 *)
  Call round3 [aa; bb; cc; dd] [1; 3]%N;   (* 514 *)
  Call round3 [dd; aa; bb; cc] [9; 9]%N;   (* 515 *)
  Call round3 [cc; dd; aa; bb] [5; 11]%N;   (* 516 *)
  Call round3 [bb; cc; dd; aa] [13; 15]%N;   (* 517 *)
  Call round3 [aa; bb; cc; dd] [3; 3]%N;   (* 518 *)
  Call round3 [dd; aa; bb; cc] [11; 9]%N;   (* 519 *)
  Call round3 [cc; dd; aa; bb] [7; 11]%N;   (* 520 *)
  Call round3 [bb; cc; dd; aa] [15; 15]%N   (* 521 *)
].
