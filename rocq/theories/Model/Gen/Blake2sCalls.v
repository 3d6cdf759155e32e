(** Generated by tools/gen_rounds.py from blake2s.h: the calls of blakeMix
    in lines 468-547, in source order (last number of each line: source line). *)
From Coq Require Import List NArith.
From Verif.Model Require Import Call.
Import ListNotations.

Inductive fn := blakeMix.

Definition calls : list (call fn) := [
  Call blakeMix [0; 4; 8; 12] [0; 1]%N;   (* 468 *)
  Call blakeMix [1; 5; 9; 13] [2; 3]%N;   (* 469 *)
  Call blakeMix [2; 6; 10; 14] [4; 5]%N;   (* 470 *)
  Call blakeMix [3; 7; 11; 15] [6; 7]%N;   (* 471 *)
  Call blakeMix [0; 5; 10; 15] [8; 9]%N;   (* 472 *)
  Call blakeMix [1; 6; 11; 12] [10; 11]%N;   (* 473 *)
  Call blakeMix [2; 7; 8; 13] [12; 13]%N;   (* 474 *)
  Call blakeMix [3; 4; 9; 14] [14; 15]%N;   (* 475 *)
  Call blakeMix [0; 4; 8; 12] [14; 10]%N;   (* 476 *)
  Call blakeMix [1; 5; 9; 13] [4; 8]%N;   (* 477 *)
  Call blakeMix [2; 6; 10; 14] [9; 15]%N;   (* 478 *)
  Call blakeMix [3; 7; 11; 15] [13; 6]%N;   (* 479 *)
  Call blakeMix [0; 5; 10; 15] [1; 12]%N;   (* 480 *)
  Call blakeMix [1; 6; 11; 12] [0; 2]%N;   (* 481 *)
  Call blakeMix [2; 7; 8; 13] [11; 7]%N;   (* 482 *)
  Call blakeMix [3; 4; 9; 14] [5; 3]%N;   (* 483 *)
  Call blakeMix [0; 4; 8; 12] [11; 8]%N;   (* 484 *)
  Call blakeMix [1; 5; 9; 13] [12; 0]%N;   (* 485 *)
  Call blakeMix [2; 6; 10; 14] [5; 2]%N;   (* 486 *)
  Call blakeMix [3; 7; 11; 15] [15; 13]%N;   (* 487 *)
  Call blakeMix [0; 5; 10; 15] [10; 14]%N;   (* 488 *)
  Call blakeMix [1; 6; 11; 12] [3; 6]%N;   (* 489 *)
  Call blakeMix [2; 7; 8; 13] [7; 1]%N;   (* 490 *)
  Call blakeMix [3; 4; 9; 14] [9; 4]%N;   (* 491 *)
  Call blakeMix [0; 4; 8; 12] [7; 9]%N;   (* 492 *)
  Call blakeMix [1; 5; 9; 13] [3; 1]%N;   (* 493 *)
  Call blakeMix [2; 6; 10; 14] [13; 12]%N;   (* 494 *)
  Call blakeMix [3; 7; 11; 15] [11; 14]%N;   (* 495 *)
  Call blakeMix [0; 5; 10; 15] [2; 6]%N;   (* 496 *)
  Call blakeMix [1; 6; 11; 12] [5; 10]%N;   (* 497 *)
  Call blakeMix [2; 7; 8; 13] [4; 0]%N;   (* 498 *)
  Call blakeMix [3; 4; 9; 14] [15; 8]%N;   (* 499 *)
  Call blakeMix [0; 4; 8; 12] [9; 0]%N;   (* 500 *)
  Call blakeMix [1; 5; 9; 13] [5; 7]%N;   (* 501 *)
  Call blakeMix [2; 6; 10; 14] [2; 4]%N;   (* 502 *)
  Call blakeMix [3; 7; 11; 15] [10; 15]%N;   (* 503 *)
  Call blakeMix [0; 5; 10; 15] [14; 1]%N;   (* 504 *)
  Call blakeMix [1; 6; 11; 12] [11; 12]%N;   (* 505 *)
  Call blakeMix [2; 7; 8; 13] [6; 8]%N;   (* 506 *)
  Call blakeMix [3; 4; 9; 14] [3; 13]%N;   (* 507 *)
  Call blakeMix [0; 4; 8; 12] [2; 12]%N;   (* 508 *)
  Call blakeMix [1; 5; 9; 13] [6; 10]%N;   (* 509 *)
  Call blakeMix [2; 6; 10; 14] [0; 11]%N;   (* 510 *)
  Call blakeMix [3; 7; 11; 15] [8; 3]%N;   (* 511 *)
  Call blakeMix [0; 5; 10; 15] [4; 13]%N;   (* 512 *)
  Call blakeMix [1; 6; 11; 12] [7; 5]%N;   (* 513 *)
  Call blakeMix [2; 7; 8; 13] [15; 14]%N;   (* 514 *)
  Call blakeMix [3; 4; 9; 14] [1; 9]%N;   (* 515 *)
  Call blakeMix [0; 4; 8; 12] [12; 5]%N;   (* 516 *)
  Call blakeMix [1; 5; 9; 13] [1; 15]%N;   (* 517 *)
  Call blakeMix [2; 6; 10; 14] [14; 13]%N;   (* 518 *)
  Call blakeMix [3; 7; 11; 15] [4; 10]%N;   (* 519 *)
  Call blakeMix [0; 5; 10; 15] [0; 7]%N;   (* 520 *)
  Call blakeMix [1; 6; 11; 12] [6; 3]%N;   (* 521 *)
  Call blakeMix [2; 7; 8; 13] [9; 2]%N;   (* 522 *)
  Call blakeMix [3; 4; 9; 14] [8; 11]%N;   (* 523 *)
  Call blakeMix [0; 4; 8; 12] [13; 11]%N;   (* 524 *)
  Call blakeMix [1; 5; 9; 13] [7; 14]%N;   (* 525 *)
  Call blakeMix [2; 6; 10; 14] [12; 1]%N;   (* 526 *)
  Call blakeMix [3; 7; 11; 15] [3; 9]%N;   (* 527 *)
  Call blakeMix [0; 5; 10; 15] [5; 0]%N;   (* 528 *)
  Call blakeMix [1; 6; 11; 12] [15; 4]%N;   (* 529 *)
  Call blakeMix [2; 7; 8; 13] [8; 6]%N;   (* 530 *)
  Call blakeMix [3; 4; 9; 14] [2; 10]%N;   (* 531 *)
  Call blakeMix [0; 4; 8; 12] [6; 15]%N;   (* 532 *)
  Call blakeMix [1; 5; 9; 13] [14; 9]%N;   (* 533 *)
  Call blakeMix [2; 6; 10; 14] [11; 3]%N;   (* 534 *)
  Call blakeMix [3; 7; 11; 15] [0; 8]%N;   (* 535 *)
  Call blakeMix [0; 5; 10; 15] [12; 2]%N;   (* 536 *)
  Call blakeMix [1; 6; 11; 12] [13; 7]%N;   (* 537 *)
  Call blakeMix [2; 7; 8; 13] [1; 4]%N;   (* 538 *)
  Call blakeMix [3; 4; 9; 14] [10; 5]%N;   (* 539 *)
  Call blakeMix [0; 4; 8; 12] [10; 2]%N;   (* 540 *)
  Call blakeMix [1; 5; 9; 13] [8; 4]%N;   (* 541 *)
  Call blakeMix [2; 6; 10; 14] [7; 6]%N;   (* 542 *)
  Call blakeMix [3; 7; 11; 15] [1; 5]%N;   (* 543 *)
  Call blakeMix [0; 5; 10; 15] [15; 11]%N;   (* 544 *)
  Call blakeMix [1; 6; 11; 12] [9; 14]%N;   (* 545 *)
  Call blakeMix [2; 7; 8; 13] [3; 12]%N;   (* 546 *)
  Call blakeMix [3; 4; 9; 14] [13; 0]%N   (* 547 *)
].
