(** Generated by tools/gen_rounds.py from blake1_256.h: the calls of blakeMix
    in lines 495-619, in source order (last number of each line: source line). *)
From Coq Require Import List NArith.
From Verif.Model Require Import Call.
Import ListNotations.

Inductive fn := blakeMix.

Definition calls : list (call fn) := [
  Call blakeMix [0; 4; 8; 12] [0; 1; 1; 0]%N;   (* 495 *)
  Call blakeMix [1; 5; 9; 13] [2; 3; 3; 2]%N;   (* 496 *)
  Call blakeMix [2; 6; 10; 14] [4; 5; 5; 4]%N;   (* 497 *)
  Call blakeMix [3; 7; 11; 15] [6; 7; 7; 6]%N;   (* 498 *)
  Call blakeMix [0; 5; 10; 15] [8; 9; 9; 8]%N;   (* 499 *)
  Call blakeMix [1; 6; 11; 12] [10; 11; 11; 10]%N;   (* 500 *)
  Call blakeMix [2; 7; 8; 13] [12; 13; 13; 12]%N;   (* 501 *)
  Call blakeMix [3; 4; 9; 14] [14; 15; 15; 14]%N;   (* 502 *)
  Call blakeMix [0; 4; 8; 12] [14; 10; 10; 14]%N;   (* 504 *)
  Call blakeMix [1; 5; 9; 13] [4; 8; 8; 4]%N;   (* 505 *)
  Call blakeMix [2; 6; 10; 14] [9; 15; 15; 9]%N;   (* 506 *)
  Call blakeMix [3; 7; 11; 15] [13; 6; 6; 13]%N;   (* 507 *)
  Call blakeMix [0; 5; 10; 15] [1; 12; 12; 1]%N;   (* 508 *)
  Call blakeMix [1; 6; 11; 12] [0; 2; 2; 0]%N;   (* 509 *)
  Call blakeMix [2; 7; 8; 13] [11; 7; 7; 11]%N;   (* 510 *)
  Call blakeMix [3; 4; 9; 14] [5; 3; 3; 5]%N;   (* 511 *)
  Call blakeMix [0; 4; 8; 12] [11; 8; 8; 11]%N;   (* 513 *)
  Call blakeMix [1; 5; 9; 13] [12; 0; 0; 12]%N;   (* 514 *)
  Call blakeMix [2; 6; 10; 14] [5; 2; 2; 5]%N;   (* 515 *)
  Call blakeMix [3; 7; 11; 15] [15; 13; 13; 15]%N;   (* 516 *)
  Call blakeMix [0; 5; 10; 15] [10; 14; 14; 10]%N;   (* 517 *)
  Call blakeMix [1; 6; 11; 12] [3; 6; 6; 3]%N;   (* 518 *)
  Call blakeMix [2; 7; 8; 13] [7; 1; 1; 7]%N;   (* 519 *)
  Call blakeMix [3; 4; 9; 14] [9; 4; 4; 9]%N;   (* 520 *)
  Call blakeMix [0; 4; 8; 12] [7; 9; 9; 7]%N;   (* 522 *)
  Call blakeMix [1; 5; 9; 13] [3; 1; 1; 3]%N;   (* 523 *)
  Call blakeMix [2; 6; 10; 14] [13; 12; 12; 13]%N;   (* 524 *)
  Call blakeMix [3; 7; 11; 15] [11; 14; 14; 11]%N;   (* 525 *)
  Call blakeMix [0; 5; 10; 15] [2; 6; 6; 2]%N;   (* 526 *)
  Call blakeMix [1; 6; 11; 12] [5; 10; 10; 5]%N;   (* 527 *)
  Call blakeMix [2; 7; 8; 13] [4; 0; 0; 4]%N;   (* 528 *)
  Call blakeMix [3; 4; 9; 14] [15; 8; 8; 15]%N;   (* 529 *)
  Call blakeMix [0; 4; 8; 12] [9; 0; 0; 9]%N;   (* 531 *)
  Call blakeMix [1; 5; 9; 13] [5; 7; 7; 5]%N;   (* 532 *)
  Call blakeMix [2; 6; 10; 14] [2; 4; 4; 2]%N;   (* 533 *)
  Call blakeMix [3; 7; 11; 15] [10; 15; 15; 10]%N;   (* 534 *)
  Call blakeMix [0; 5; 10; 15] [14; 1; 1; 14]%N;   (* 535 *)
  Call blakeMix [1; 6; 11; 12] [11; 12; 12; 11]%N;   (* 536 *)
  Call blakeMix [2; 7; 8; 13] [6; 8; 8; 6]%N;   (* 537 *)
  Call blakeMix [3; 4; 9; 14] [3; 13; 13; 3]%N;   (* 538 *)
  Call blakeMix [0; 4; 8; 12] [2; 12; 12; 2]%N;   (* 540 *)
  Call blakeMix [1; 5; 9; 13] [6; 10; 10; 6]%N;   (* 541 *)
  Call blakeMix [2; 6; 10; 14] [0; 11; 11; 0]%N;   (* 542 *)
  Call blakeMix [3; 7; 11; 15] [8; 3; 3; 8]%N;   (* 543 *)
  Call blakeMix [0; 5; 10; 15] [4; 13; 13; 4]%N;   (* 544 *)
  Call blakeMix [1; 6; 11; 12] [7; 5; 5; 7]%N;   (* 545 *)
  Call blakeMix [2; 7; 8; 13] [15; 14; 14; 15]%N;   (* 546 *)
  Call blakeMix [3; 4; 9; 14] [1; 9; 9; 1]%N;   (* 547 *)
  Call blakeMix [0; 4; 8; 12] [12; 5; 5; 12]%N;   (* 549 *)
  Call blakeMix [1; 5; 9; 13] [1; 15; 15; 1]%N;   (* 550 *)
  Call blakeMix [2; 6; 10; 14] [14; 13; 13; 14]%N;   (* 551 *)
  Call blakeMix [3; 7; 11; 15] [4; 10; 10; 4]%N;   (* 552 *)
  Call blakeMix [0; 5; 10; 15] [0; 7; 7; 0]%N;   (* 553 *)
  Call blakeMix [1; 6; 11; 12] [6; 3; 3; 6]%N;   (* 554 *)
  Call blakeMix [2; 7; 8; 13] [9; 2; 2; 9]%N;   (* 555 *)
  Call blakeMix [3; 4; 9; 14] [8; 11; 11; 8]%N;   (* 556 *)
  Call blakeMix [0; 4; 8; 12] [13; 11; 11; 13]%N;   (* 558 *)
  Call blakeMix [1; 5; 9; 13] [7; 14; 14; 7]%N;   (* 559 *)
  Call blakeMix [2; 6; 10; 14] [12; 1; 1; 12]%N;   (* 560 *)
  Call blakeMix [3; 7; 11; 15] [3; 9; 9; 3]%N;   (* 561 *)
  Call blakeMix [0; 5; 10; 15] [5; 0; 0; 5]%N;   (* 562 *)
  Call blakeMix [1; 6; 11; 12] [15; 4; 4; 15]%N;   (* 563 *)
  Call blakeMix [2; 7; 8; 13] [8; 6; 6; 8]%N;   (* 564 *)
  Call blakeMix [3; 4; 9; 14] [2; 10; 10; 2]%N;   (* 565 *)
  Call blakeMix [0; 4; 8; 12] [6; 15; 15; 6]%N;   (* 567 *)
  Call blakeMix [1; 5; 9; 13] [14; 9; 9; 14]%N;   (* 568 *)
  Call blakeMix [2; 6; 10; 14] [11; 3; 3; 11]%N;   (* 569 *)
  Call blakeMix [3; 7; 11; 15] [0; 8; 8; 0]%N;   (* 570 *)
  Call blakeMix [0; 5; 10; 15] [12; 2; 2; 12]%N;   (* 571 *)
  Call blakeMix [1; 6; 11; 12] [13; 7; 7; 13]%N;   (* 572 *)
  Call blakeMix [2; 7; 8; 13] [1; 4; 4; 1]%N;   (* 573 *)
  Call blakeMix [3; 4; 9; 14] [10; 5; 5; 10]%N;   (* 574 *)
  Call blakeMix [0; 4; 8; 12] [10; 2; 2; 10]%N;   (* 576 *)
  Call blakeMix [1; 5; 9; 13] [8; 4; 4; 8]%N;   (* 577 *)
  Call blakeMix [2; 6; 10; 14] [7; 6; 6; 7]%N;   (* 578 *)
  Call blakeMix [3; 7; 11; 15] [1; 5; 5; 1]%N;   (* 579 *)
  Call blakeMix [0; 5; 10; 15] [15; 11; 11; 15]%N;   (* 580 *)
  Call blakeMix [1; 6; 11; 12] [9; 14; 14; 9]%N;   (* 581 *)
  Call blakeMix [2; 7; 8; 13] [3; 12; 12; 3]%N;   (* 582 *)
  Call blakeMix [3; 4; 9; 14] [13; 0; 0; 13]%N;   (* 583 *)
  Call blakeMix [0; 4; 8; 12] [0; 1; 1; 0]%N;   (* 585 *)
  Call blakeMix [1; 5; 9; 13] [2; 3; 3; 2]%N;   (* 586 *)
  Call blakeMix [2; 6; 10; 14] [4; 5; 5; 4]%N;   (* 587 *)
  Call blakeMix [3; 7; 11; 15] [6; 7; 7; 6]%N;   (* 588 *)
  Call blakeMix [0; 5; 10; 15] [8; 9; 9; 8]%N;   (* 589 *)
  Call blakeMix [1; 6; 11; 12] [10; 11; 11; 10]%N;   (* 590 *)
  Call blakeMix [2; 7; 8; 13] [12; 13; 13; 12]%N;   (* 591 *)
  Call blakeMix [3; 4; 9; 14] [14; 15; 15; 14]%N;   (* 592 *)
  Call blakeMix [0; 4; 8; 12] [14; 10; 10; 14]%N;   (* 594 *)
  Call blakeMix [1; 5; 9; 13] [4; 8; 8; 4]%N;   (* 595 *)
  Call blakeMix [2; 6; 10; 14] [9; 15; 15; 9]%N;   (* 596 *)
  Call blakeMix [3; 7; 11; 15] [13; 6; 6; 13]%N;   (* 597 *)
  Call blakeMix [0; 5; 10; 15] [1; 12; 12; 1]%N;   (* 598 *)
  Call blakeMix [1; 6; 11; 12] [0; 2; 2; 0]%N;   (* 599 *)
  Call blakeMix [2; 7; 8; 13] [11; 7; 7; 11]%N;   (* 600 *)
  Call blakeMix [3; 4; 9; 14] [5; 3; 3; 5]%N;   (* 601 *)
  Call blakeMix [0; 4; 8; 12] [11; 8; 8; 11]%N;   (* 603 *)
  Call blakeMix [1; 5; 9; 13] [12; 0; 0; 12]%N;   (* 604 *)
  Call blakeMix [2; 6; 10; 14] [5; 2; 2; 5]%N;   (* 605 *)
  Call blakeMix [3; 7; 11; 15] [15; 13; 13; 15]%N;   (* 606 *)
  Call blakeMix [0; 5; 10; 15] [10; 14; 14; 10]%N;   (* 607 *)
  Call blakeMix [1; 6; 11; 12] [3; 6; 6; 3]%N;   (* 608 *)
  Call blakeMix [2; 7; 8; 13] [7; 1; 1; 7]%N;   (* 609 *)
  Call blakeMix [3; 4; 9; 14] [9; 4; 4; 9]%N;   (* 610 *)
  Call blakeMix [0; 4; 8; 12] [7; 9; 9; 7]%N;   (* 612 *)
  Call blakeMix [1; 5; 9; 13] [3; 1; 1; 3]%N;   (* 613 *)
  Call blakeMix [2; 6; 10; 14] [13; 12; 12; 13]%N;   (* 614 *)
  Call blakeMix [3; 7; 11; 15] [11; 14; 14; 11]%N;   (* 615 *)
  Call blakeMix [0; 5; 10; 15] [2; 6; 6; 2]%N;   (* 616 *)
  Call blakeMix [1; 6; 11; 12] [5; 10; 10; 5]%N;   (* 617 *)
  Call blakeMix [2; 7; 8; 13] [4; 0; 0; 4]%N;   (* 618 *)
  Call blakeMix [3; 4; 9; 14] [15; 8; 8; 15]%N   (* 619 *)
].
