(** Generated by tools/gen_rounds.py from sm3.h: the calls of sm3Round1, sm3Round2
    in lines 498-577, in source order (last number of each line: source line). *)
From Coq Require Import List NArith.
From Verif.Model Require Import Call.
Import ListNotations.

Inductive fn := sm3Round1 | sm3Round2.
Local Notation a := 0%nat (only parsing).
Local Notation b := 1%nat (only parsing).
Local Notation c := 2%nat (only parsing).
Local Notation d := 3%nat (only parsing).
Local Notation e := 4%nat (only parsing).
Local Notation f := 5%nat (only parsing).
Local Notation g := 6%nat (only parsing).
Local Notation h := 7%nat (only parsing).

Definition calls : list (call fn) := [
  Call sm3Round1 [a; b; c; d; e; f; g; h] [0x79cc4519; 0]%N;   (* 498 *)
  Call sm3Round1 [d; a; b; c; h; e; f; g] [0xf3988a32; 1]%N;   (* 499 *)
  Call sm3Round1 [c; d; a; b; g; h; e; f] [0xe7311465; 2]%N;   (* 500 *)
  Call sm3Round1 [b; c; d; a; f; g; h; e] [0xce6228cb; 3]%N;   (* 501 *)
  Call sm3Round1 [a; b; c; d; e; f; g; h] [0x9cc45197; 4]%N;   (* 502 *)
  Call sm3Round1 [d; a; b; c; h; e; f; g] [0x3988a32f; 5]%N;   (* 503 *)
  Call sm3Round1 [c; d; a; b; g; h; e; f] [0x7311465e; 6]%N;   (* 504 *)
  Call sm3Round1 [b; c; d; a; f; g; h; e] [0xe6228cbc; 7]%N;   (* 505 *)
  Call sm3Round1 [a; b; c; d; e; f; g; h] [0xcc451979; 8]%N;   (* 506 *)
  Call sm3Round1 [d; a; b; c; h; e; f; g] [0x988a32f3; 9]%N;   (* 507 *)
  Call sm3Round1 [c; d; a; b; g; h; e; f] [0x311465e7; 10]%N;   (* 508 *)
  Call sm3Round1 [b; c; d; a; f; g; h; e] [0x6228cbce; 11]%N;   (* 509 *)
  Call sm3Round1 [a; b; c; d; e; f; g; h] [0xc451979c; 12]%N;   (* 510 *)
  Call sm3Round1 [d; a; b; c; h; e; f; g] [0x88a32f39; 13]%N;   (* 511 *)
  Call sm3Round1 [c; d; a; b; g; h; e; f] [0x11465e73; 14]%N;   (* 512 *)
  Call sm3Round1 [b; c; d; a; f; g; h; e] [0x228cbce6; 15]%N;   (* 513 *)
  Call sm3Round2 [a; b; c; d; e; f; g; h] [0x9d8a7a87; 16]%N;   (* 530 *)
  Call sm3Round2 [d; a; b; c; h; e; f; g] [0x3b14f50f; 17]%N;   (* 531 *)
  Call sm3Round2 [c; d; a; b; g; h; e; f] [0x7629ea1e; 18]%N;   (* 532 *)
  Call sm3Round2 [b; c; d; a; f; g; h; e] [0xec53d43c; 19]%N;   (* 533 *)
  Call sm3Round2 [a; b; c; d; e; f; g; h] [0xd8a7a879; 20]%N;   (* 534 *)
  Call sm3Round2 [d; a; b; c; h; e; f; g] [0xb14f50f3; 21]%N;   (* 535 *)
  Call sm3Round2 [c; d; a; b; g; h; e; f] [0x629ea1e7; 22]%N;   (* 536 *)
  Call sm3Round2 [b; c; d; a; f; g; h; e] [0xc53d43ce; 23]%N;   (* 537 *)
  Call sm3Round2 [a; b; c; d; e; f; g; h] [0x8a7a879d; 24]%N;   (* 538 *)
  Call sm3Round2 [d; a; b; c; h; e; f; g] [0x14f50f3b; 25]%N;   (* 539 *)
  Call sm3Round2 [c; d; a; b; g; h; e; f] [0x29ea1e76; 26]%N;   (* 540 *)
  Call sm3Round2 [b; c; d; a; f; g; h; e] [0x53d43cec; 27]%N;   (* 541 *)
  Call sm3Round2 [a; b; c; d; e; f; g; h] [0xa7a879d8; 28]%N;   (* 542 *)
  Call sm3Round2 [d; a; b; c; h; e; f; g] [0x4f50f3b1; 29]%N;   (* 543 *)
  Call sm3Round2 [c; d; a; b; g; h; e; f] [0x9ea1e762; 30]%N;   (* 544 *)
  Call sm3Round2 [b; c; d; a; f; g; h; e] [0x3d43cec5; 31]%N;   (* 545 *)
  Call sm3Round2 [a; b; c; d; e; f; g; h] [0x7a879d8a; 32]%N;   (* 546 *)
  Call sm3Round2 [d; a; b; c; h; e; f; g] [0xf50f3b14; 33]%N;   (* 547 *)
  Call sm3Round2 [c; d; a; b; g; h; e; f] [0xea1e7629; 34]%N;   (* 548 *)
  Call sm3Round2 [b; c; d; a; f; g; h; e] [0xd43cec53; 35]%N;   (* 549 *)
  Call sm3Round2 [a; b; c; d; e; f; g; h] [0xa879d8a7; 36]%N;   (* 550 *)
  Call sm3Round2 [d; a; b; c; h; e; f; g] [0x50f3b14f; 37]%N;   (* 551 *)
  Call sm3Round2 [c; d; a; b; g; h; e; f] [0xa1e7629e; 38]%N;   (* 552 *)
  Call sm3Round2 [b; c; d; a; f; g; h; e] [0x43cec53d; 39]%N;   (* 553 *)
  Call sm3Round2 [a; b; c; d; e; f; g; h] [0x879d8a7a; 40]%N;   (* 554 *)
  Call sm3Round2 [d; a; b; c; h; e; f; g] [0xf3b14f5; 41]%N;   (* 555 *)
  Call sm3Round2 [c; d; a; b; g; h; e; f] [0x1e7629ea; 42]%N;   (* 556 *)
  Call sm3Round2 [b; c; d; a; f; g; h; e] [0x3cec53d4; 43]%N;   (* 557 *)
  Call sm3Round2 [a; b; c; d; e; f; g; h] [0x79d8a7a8; 44]%N;   (* 558 *)
  Call sm3Round2 [d; a; b; c; h; e; f; g] [0xf3b14f50; 45]%N;   (* 559 *)
  Call sm3Round2 [c; d; a; b; g; h; e; f] [0xe7629ea1; 46]%N;   (* 560 *)
  Call sm3Round2 [b; c; d; a; f; g; h; e] [0xcec53d43; 47]%N;   (* 561 *)
  Call sm3Round2 [a; b; c; d; e; f; g; h] [0x9d8a7a87; 48]%N;   (* 562 *)
  Call sm3Round2 [d; a; b; c; h; e; f; g] [0x3b14f50f; 49]%N;   (* 563 *)
  Call sm3Round2 [c; d; a; b; g; h; e; f] [0x7629ea1e; 50]%N;   (* 564 *)
  Call sm3Round2 [b; c; d; a; f; g; h; e] [0xec53d43c; 51]%N;   (* 565 *)
  Call sm3Round2 [a; b; c; d; e; f; g; h] [0xd8a7a879; 52]%N;   (* 566 *)
  Call sm3Round2 [d; a; b; c; h; e; f; g] [0xb14f50f3; 53]%N;   (* 567 *)
  Call sm3Round2 [c; d; a; b; g; h; e; f] [0x629ea1e7; 54]%N;   (* 568 *)
  Call sm3Round2 [b; c; d; a; f; g; h; e] [0xc53d43ce; 55]%N;   (* 569 *)
  Call sm3Round2 [a; b; c; d; e; f; g; h] [0x8a7a879d; 56]%N;   (* 570 *)
  Call sm3Round2 [d; a; b; c; h; e; f; g] [0x14f50f3b; 57]%N;   (* 571 *)
  Call sm3Round2 [c; d; a; b; g; h; e; f] [0x29ea1e76; 58]%N;   (* 572 *)
  Call sm3Round2 [b; c; d; a; f; g; h; e] [0x53d43cec; 59]%N;   (* 573 *)
  Call sm3Round2 [a; b; c; d; e; f; g; h] [0xa7a879d8; 60]%N;   (* 574 *)
  Call sm3Round2 [d; a; b; c; h; e; f; g] [0x4f50f3b1; 61]%N;   (* 575 *)
  Call sm3Round2 [c; d; a; b; g; h; e; f] [0x9ea1e762; 62]%N;   (* 576 *)
  Call sm3Round2 [b; c; d; a; f; g; h; e] [0x3d43cec5; 63]%N   (* 577 *)
].
