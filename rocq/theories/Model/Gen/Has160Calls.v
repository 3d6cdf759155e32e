(** Generated by tools/gen_rounds.py from has_160.h: the calls of extendXTable, round1, round2, round3, round4
    in lines 485-589, in source order (last number of each line: source line). *)
From Coq Require Import List NArith.
From Verif.Model Require Import Call.
Import ListNotations.

Inductive fn := extendXTable | round1 | round2 | round3 | round4.
Local Notation a := 0%nat (only parsing).
Local Notation b := 1%nat (only parsing).
Local Notation c := 2%nat (only parsing).
Local Notation d := 3%nat (only parsing).
Local Notation e := 4%nat (only parsing).

Definition calls : list (call fn) := [
  Call extendXTable [] [0]%N;   (* 485 *)
  Call round1 [a; b; c; d; e] [5; 0]%N;   (* 486 *)
  Call round1 [e; a; b; c; d] [11; 1]%N;   (* 487 *)
  Call round1 [d; e; a; b; c] [7; 2]%N;   (* 488 *)
  Call round1 [c; d; e; a; b] [15; 3]%N;   (* 489 *)
  Call round1 [b; c; d; e; a] [6; 4]%N;   (* 490 *)
  Call round1 [a; b; c; d; e] [13; 5]%N;   (* 491 *)
  Call round1 [e; a; b; c; d] [8; 6]%N;   (* 492 *)
  Call round1 [d; e; a; b; c] [14; 7]%N;   (* 493 *)
  Call round1 [c; d; e; a; b] [7; 8]%N;   (* 494 *)
  Call round1 [b; c; d; e; a] [12; 9]%N;   (* 495 *)
  Call round1 [a; b; c; d; e] [9; 10]%N;   (* 496 *)
  Call round1 [e; a; b; c; d] [11; 11]%N;   (* 497 *)
  Call round1 [d; e; a; b; c] [8; 12]%N;   (* 498 *)
  Call round1 [c; d; e; a; b] [15; 13]%N;   (* 499 *)
  Call round1 [b; c; d; e; a] [6; 14]%N;   (* 500 *)
  Call round1 [a; b; c; d; e] [12; 15]%N;   (* 501 *)
  Call round1 [e; a; b; c; d] [9; 16]%N;   (* 502 *)
  Call round1 [d; e; a; b; c] [14; 17]%N;   (* 503 *)
  Call round1 [c; d; e; a; b] [5; 18]%N;   (* 504 *)
  Call round1 [b; c; d; e; a] [13; 19]%N;   (* 505 *)
  Call extendXTable [] [20]%N;   (* 513 *)
  Call round2 [a; b; c; d; e] [5; 20]%N;   (* 514 *)
  Call round2 [e; a; b; c; d] [11; 21]%N;   (* 515 *)
  Call round2 [d; e; a; b; c] [7; 22]%N;   (* 516 *)
  Call round2 [c; d; e; a; b] [15; 23]%N;   (* 517 *)
  Call round2 [b; c; d; e; a] [6; 24]%N;   (* 518 *)
  Call round2 [a; b; c; d; e] [13; 25]%N;   (* 519 *)
  Call round2 [e; a; b; c; d] [8; 26]%N;   (* 520 *)
  Call round2 [d; e; a; b; c] [14; 27]%N;   (* 521 *)
  Call round2 [c; d; e; a; b] [7; 28]%N;   (* 522 *)
  Call round2 [b; c; d; e; a] [12; 29]%N;   (* 523 *)
  Call round2 [a; b; c; d; e] [9; 30]%N;   (* 524 *)
  Call round2 [e; a; b; c; d] [11; 31]%N;   (* 525 *)
  Call round2 [d; e; a; b; c] [8; 32]%N;   (* 526 *)
  Call round2 [c; d; e; a; b] [15; 33]%N;   (* 527 *)
  Call round2 [b; c; d; e; a] [6; 34]%N;   (* 528 *)
  Call round2 [a; b; c; d; e] [12; 35]%N;   (* 529 *)
  Call round2 [e; a; b; c; d] [9; 36]%N;   (* 530 *)
  Call round2 [d; e; a; b; c] [14; 37]%N;   (* 531 *)
  Call round2 [c; d; e; a; b] [5; 38]%N;   (* 532 *)
  Call round2 [b; c; d; e; a] [13; 39]%N;   (* 533 *)
  Call extendXTable [] [40]%N;   (* 541 *)
  Call round3 [a; b; c; d; e] [5; 40]%N;   (* 542 *)
  Call round3 [e; a; b; c; d] [11; 41]%N;   (* 543 *)
  Call round3 [d; e; a; b; c] [7; 42]%N;   (* 544 *)
  Call round3 [c; d; e; a; b] [15; 43]%N;   (* 545 *)
  Call round3 [b; c; d; e; a] [6; 44]%N;   (* 546 *)
  Call round3 [a; b; c; d; e] [13; 45]%N;   (* 547 *)
  Call round3 [e; a; b; c; d] [8; 46]%N;   (* 548 *)
  Call round3 [d; e; a; b; c] [14; 47]%N;   (* 549 *)
  Call round3 [c; d; e; a; b] [7; 48]%N;   (* 550 *)
  Call round3 [b; c; d; e; a] [12; 49]%N;   (* 551 *)
  Call round3 [a; b; c; d; e] [9; 50]%N;   (* 552 *)
  Call round3 [e; a; b; c; d] [11; 51]%N;   (* 553 *)
  Call round3 [d; e; a; b; c] [8; 52]%N;   (* 554 *)
  Call round3 [c; d; e; a; b] [15; 53]%N;   (* 555 *)
  Call round3 [b; c; d; e; a] [6; 54]%N;   (* 556 *)
  Call round3 [a; b; c; d; e] [12; 55]%N;   (* 557 *)
  Call round3 [e; a; b; c; d] [9; 56]%N;   (* 558 *)
  Call round3 [d; e; a; b; c] [14; 57]%N;   (* 559 *)
  Call round3 [c; d; e; a; b] [5; 58]%N;   (* 560 *)
  Call round3 [b; c; d; e; a] [13; 59]%N;   (* 561 *)
  Call extendXTable [] [60]%N;   (* 569 *)
  Call round4 [a; b; c; d; e] [5; 60]%N;   (* 570 *)
  Call round4 [e; a; b; c; d] [11; 61]%N;   (* 571 *)
  Call round4 [d; e; a; b; c] [7; 62]%N;   (* 572 *)
  Call round4 [c; d; e; a; b] [15; 63]%N;   (* 573 *)
  Call round4 [b; c; d; e; a] [6; 64]%N;   (* 574 *)
  Call round4 [a; b; c; d; e] [13; 65]%N;   (* 575 *)
  Call round4 [e; a; b; c; d] [8; 66]%N;   (* 576 *)
  Call round4 [d; e; a; b; c] [14; 67]%N;   (* 577 *)
  Call round4 [c; d; e; a; b] [7; 68]%N;   (* 578 *)
  Call round4 [b; c; d; e; a] [12; 69]%N;   (* 579 *)
  Call round4 [a; b; c; d; e] [9; 70]%N;   (* 580 *)
  Call round4 [e; a; b; c; d] [11; 71]%N;   (* 581 *)
  Call round4 [d; e; a; b; c] [8; 72]%N;   (* 582 *)
  Call round4 [c; d; e; a; b] [15; 73]%N;   (* 583 *)
  Call round4 [b; c; d; e; a] [6; 74]%N;   (* 584 *)
  Call round4 [a; b; c; d; e] [12; 75]%N;   (* 585 *)
  Call round4 [e; a; b; c; d] [9; 76]%N;   (* 586 *)
  Call round4 [d; e; a; b; c] [14; 77]%N;   (* 587 *)
  Call round4 [c; d; e; a; b] [5; 78]%N;   (* 588 *)
  Call round4 [b; c; d; e; a] [13; 79]%N   (* 589 *)
].
