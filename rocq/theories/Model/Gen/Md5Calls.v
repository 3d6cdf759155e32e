(** Generated by tools/gen_rounds.py from md5.h: the calls of round
    in lines 480-552, in source order (last number of each line: source line). *)
From Coq Require Import List NArith.
From Verif.Model Require Import Call.
Import ListNotations.

Inductive fn := round.
Local Notation a := 0%nat (only parsing).
Local Notation b := 1%nat (only parsing).
Local Notation c := 2%nat (only parsing).
Local Notation d := 3%nat (only parsing).
Local Notation f := 0%N (only parsing).
Local Notation g := 1%N (only parsing).
Local Notation h := 2%N (only parsing).
Local Notation ii := 3%N (only parsing).

Definition calls : list (call fn) := [
  Call round [a; b; c; d] [f; 0; 7; 0xd76aa478]%N;   (* 485 *)
  Call round [d; a; b; c] [f; 1; 12; 0xe8c7b756]%N;   (* 486 *)
  Call round [c; d; a; b] [f; 2; 17; 0x242070db]%N;   (* 487 *)
  Call round [b; c; d; a] [f; 3; 22; 0xc1bdceee]%N;   (* 488 *)
  Call round [a; b; c; d] [f; 4; 7; 0xf57c0faf]%N;   (* 489 *)
  Call round [d; a; b; c] [f; 5; 12; 0x4787c62a]%N;   (* 490 *)
  Call round [c; d; a; b] [f; 6; 17; 0xa8304613]%N;   (* 491 *)
  Call round [b; c; d; a] [f; 7; 22; 0xfd469501]%N;   (* 492 *)
  Call round [a; b; c; d] [f; 8; 7; 0x698098d8]%N;   (* 493 *)
  Call round [d; a; b; c] [f; 9; 12; 0x8b44f7af]%N;   (* 494 *)
  Call round [c; d; a; b] [f; 10; 17; 0xffff5bb1]%N;   (* 495 *)
  Call round [b; c; d; a] [f; 11; 22; 0x895cd7be]%N;   (* 496 *)
  Call round [a; b; c; d] [f; 12; 7; 0x6b901122]%N;   (* 497 *)
  Call round [d; a; b; c] [f; 13; 12; 0xfd987193]%N;   (* 498 *)
  Call round [c; d; a; b] [f; 14; 17; 0xa679438e]%N;   (* 499 *)
  Call round [b; c; d; a] [f; 15; 22; 0x49b40821]%N;   (* 500 *)
  Call round [a; b; c; d] [g; 1; 5; 0xf61e2562]%N;   (* 502 *)
  Call round [d; a; b; c] [g; 6; 9; 0xc040b340]%N;   (* 503 *)
  Call round [c; d; a; b] [g; 11; 14; 0x265e5a51]%N;   (* 504 *)
  Call round [b; c; d; a] [g; 0; 20; 0xe9b6c7aa]%N;   (* 505 *)
  Call round [a; b; c; d] [g; 5; 5; 0xd62f105d]%N;   (* 506 *)
  Call round [d; a; b; c] [g; 10; 9; 0x2441453]%N;   (* 507 *)
  Call round [c; d; a; b] [g; 15; 14; 0xd8a1e681]%N;   (* 508 *)
  Call round [b; c; d; a] [g; 4; 20; 0xe7d3fbc8]%N;   (* 509 *)
  Call round [a; b; c; d] [g; 9; 5; 0x21e1cde6]%N;   (* 510 *)
  Call round [d; a; b; c] [g; 14; 9; 0xc33707d6]%N;   (* 511 *)
  Call round [c; d; a; b] [g; 3; 14; 0xf4d50d87]%N;   (* 512 *)
  Call round [b; c; d; a] [g; 8; 20; 0x455a14ed]%N;   (* 513 *)
  Call round [a; b; c; d] [g; 13; 5; 0xa9e3e905]%N;   (* 514 *)
  Call round [d; a; b; c] [g; 2; 9; 0xfcefa3f8]%N;   (* 515 *)
  Call round [c; d; a; b] [g; 7; 14; 0x676f02d9]%N;   (* 516 *)
  Call round [b; c; d; a] [g; 12; 20; 0x8d2a4c8a]%N;   (* 517 *)
  Call round [a; b; c; d] [h; 5; 4; 0xfffa3942]%N;   (* 519 *)
  Call round [d; a; b; c] [h; 8; 11; 0x8771f681]%N;   (* 520 *)
  Call round [c; d; a; b] [h; 11; 16; 0x6d9d6122]%N;   (* 521 *)
  Call round [b; c; d; a] [h; 14; 23; 0xfde5380c]%N;   (* 522 *)
  Call round [a; b; c; d] [h; 1; 4; 0xa4beea44]%N;   (* 523 *)
  Call round [d; a; b; c] [h; 4; 11; 0x4bdecfa9]%N;   (* 524 *)
  Call round [c; d; a; b] [h; 7; 16; 0xf6bb4b60]%N;   (* 525 *)
  Call round [b; c; d; a] [h; 10; 23; 0xbebfbc70]%N;   (* 526 *)
  Call round [a; b; c; d] [h; 13; 4; 0x289b7ec6]%N;   (* 527 *)
  Call round [d; a; b; c] [h; 0; 11; 0xeaa127fa]%N;   (* 528 *)
  Call round [c; d; a; b] [h; 3; 16; 0xd4ef3085]%N;   (* 529 *)
  Call round [b; c; d; a] [h; 6; 23; 0x4881d05]%N;   (* 530 *)
  Call round [a; b; c; d] [h; 9; 4; 0xd9d4d039]%N;   (* 531 *)
  Call round [d; a; b; c] [h; 12; 11; 0xe6db99e5]%N;   (* 532 *)
  Call round [c; d; a; b] [h; 15; 16; 0x1fa27cf8]%N;   (* 533 *)
  Call round [b; c; d; a] [h; 2; 23; 0xc4ac5665]%N;   (* 534 *)
  Call round [a; b; c; d] [ii; 0; 6; 0xf4292244]%N;   (* 536 *)
  Call round [d; a; b; c] [ii; 7; 10; 0x432aff97]%N;   (* 537 *)
  Call round [c; d; a; b] [ii; 14; 15; 0xab9423a7]%N;   (* 538 *)
  Call round [b; c; d; a] [ii; 5; 21; 0xfc93a039]%N;   (* 539 *)
  Call round [a; b; c; d] [ii; 12; 6; 0x655b59c3]%N;   (* 540 *)
  Call round [d; a; b; c] [ii; 3; 10; 0x8f0ccc92]%N;   (* 541 *)
  Call round [c; d; a; b] [ii; 10; 15; 0xffeff47d]%N;   (* 542 *)
  Call round [b; c; d; a] [ii; 1; 21; 0x85845dd1]%N;   (* 543 *)
  Call round [a; b; c; d] [ii; 8; 6; 0x6fa87e4f]%N;   (* 544 *)
  Call round [d; a; b; c] [ii; 15; 10; 0xfe2ce6e0]%N;   (* 545 *)
  Call round [c; d; a; b] [ii; 6; 15; 0xa3014314]%N;   (* 546 *)
  Call round [b; c; d; a] [ii; 13; 21; 0x4e0811a1]%N;   (* 547 *)
  Call round [a; b; c; d] [ii; 4; 6; 0xf7537e82]%N;   (* 548 *)
  Call round [d; a; b; c] [ii; 11; 10; 0xbd3af235]%N;   (* 549 *)
  Call round [c; d; a; b] [ii; 2; 15; 0x2ad7d2bb]%N;   (* 550 *)
  Call round [b; c; d; a] [ii; 9; 21; 0xeb86d391]%N   (* 551 *)
].
