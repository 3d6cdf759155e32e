(** Generated by tools/gen_rounds.py from blake2.h: the calls of blakeMix
    in lines 534-629, in source order (last number of each line: source line). *)
From Coq Require Import List NArith.
From Verif.Model Require Import Call.
Import ListNotations.

Inductive fn := blakeMix.

Definition calls : list (call fn) := [
  Call blakeMix [0; 4; 8; 12] [0; 1]%N;   (* 534 *)
  Call blakeMix [1; 5; 9; 13] [2; 3]%N;   (* 535 *)
  Call blakeMix [2; 6; 10; 14] [4; 5]%N;   (* 536 *)
  Call blakeMix [3; 7; 11; 15] [6; 7]%N;   (* 537 *)
  Call blakeMix [0; 5; 10; 15] [8; 9]%N;   (* 538 *)
  Call blakeMix [1; 6; 11; 12] [10; 11]%N;   (* 539 *)
  Call blakeMix [2; 7; 8; 13] [12; 13]%N;   (* 540 *)
  Call blakeMix [3; 4; 9; 14] [14; 15]%N;   (* 541 *)
  Call blakeMix [0; 4; 8; 12] [14; 10]%N;   (* 542 *)
  Call blakeMix [1; 5; 9; 13] [4; 8]%N;   (* 543 *)
  Call blakeMix [2; 6; 10; 14] [9; 15]%N;   (* 544 *)
  Call blakeMix [3; 7; 11; 15] [13; 6]%N;   (* 545 *)
  Call blakeMix [0; 5; 10; 15] [1; 12]%N;   (* 546 *)
  Call blakeMix [1; 6; 11; 12] [0; 2]%N;   (* 547 *)
  Call blakeMix [2; 7; 8; 13] [11; 7]%N;   (* 548 *)
  Call blakeMix [3; 4; 9; 14] [5; 3]%N;   (* 549 *)
  Call blakeMix [0; 4; 8; 12] [11; 8]%N;   (* 550 *)
  Call blakeMix [1; 5; 9; 13] [12; 0]%N;   (* 551 *)
  Call blakeMix [2; 6; 10; 14] [5; 2]%N;   (* 552 *)
  Call blakeMix [3; 7; 11; 15] [15; 13]%N;   (* 553 *)
  Call blakeMix [0; 5; 10; 15] [10; 14]%N;   (* 554 *)
  Call blakeMix [1; 6; 11; 12] [3; 6]%N;   (* 555 *)
  Call blakeMix [2; 7; 8; 13] [7; 1]%N;   (* 556 *)
  Call blakeMix [3; 4; 9; 14] [9; 4]%N;   (* 557 *)
  Call blakeMix [0; 4; 8; 12] [7; 9]%N;   (* 558 *)
  Call blakeMix [1; 5; 9; 13] [3; 1]%N;   (* 559 *)
  Call blakeMix [2; 6; 10; 14] [13; 12]%N;   (* 560 *)
  Call blakeMix [3; 7; 11; 15] [11; 14]%N;   (* 561 *)
  Call blakeMix [0; 5; 10; 15] [2; 6]%N;   (* 562 *)
  Call blakeMix [1; 6; 11; 12] [5; 10]%N;   (* 563 *)
  Call blakeMix [2; 7; 8; 13] [4; 0]%N;   (* 564 *)
  Call blakeMix [3; 4; 9; 14] [15; 8]%N;   (* 565 *)
  Call blakeMix [0; 4; 8; 12] [9; 0]%N;   (* 566 *)
  Call blakeMix [1; 5; 9; 13] [5; 7]%N;   (* 567 *)
  Call blakeMix [2; 6; 10; 14] [2; 4]%N;   (* 568 *)
  Call blakeMix [3; 7; 11; 15] [10; 15]%N;   (* 569 *)
  Call blakeMix [0; 5; 10; 15] [14; 1]%N;   (* 570 *)
  Call blakeMix [1; 6; 11; 12] [11; 12]%N;   (* 571 *)
  Call blakeMix [2; 7; 8; 13] [6; 8]%N;   (* 572 *)
  Call blakeMix [3; 4; 9; 14] [3; 13]%N;   (* 573 *)
  Call blakeMix [0; 4; 8; 12] [2; 12]%N;   (* 574 *)
  Call blakeMix [1; 5; 9; 13] [6; 10]%N;   (* 575 *)
  Call blakeMix [2; 6; 10; 14] [0; 11]%N;   (* 576 *)
  Call blakeMix [3; 7; 11; 15] [8; 3]%N;   (* 577 *)
  Call blakeMix [0; 5; 10; 15] [4; 13]%N;   (* 578 *)
  Call blakeMix [1; 6; 11; 12] [7; 5]%N;   (* 579 *)
  Call blakeMix [2; 7; 8; 13] [15; 14]%N;   (* 580 *)
  Call blakeMix [3; 4; 9; 14] [1; 9]%N;   (* 581 *)
  Call blakeMix [0; 4; 8; 12] [12; 5]%N;   (* 582 *)
  Call blakeMix [1; 5; 9; 13] [1; 15]%N;   (* 583 *)
  Call blakeMix [2; 6; 10; 14] [14; 13]%N;   (* 584 *)
  Call blakeMix [3; 7; 11; 15] [4; 10]%N;   (* 585 *)
  Call blakeMix [0; 5; 10; 15] [0; 7]%N;   (* 586 *)
  Call blakeMix [1; 6; 11; 12] [6; 3]%N;   (* 587 *)
  Call blakeMix [2; 7; 8; 13] [9; 2]%N;   (* 588 *)
  Call blakeMix [3; 4; 9; 14] [8; 11]%N;   (* 589 *)
  Call blakeMix [0; 4; 8; 12] [13; 11]%N;   (* 590 *)
  Call blakeMix [1; 5; 9; 13] [7; 14]%N;   (* 591 *)
  Call blakeMix [2; 6; 10; 14] [12; 1]%N;   (* 592 *)
  Call blakeMix [3; 7; 11; 15] [3; 9]%N;   (* 593 *)
  Call blakeMix [0; 5; 10; 15] [5; 0]%N;   (* 594 *)
  Call blakeMix [1; 6; 11; 12] [15; 4]%N;   (* 595 *)
  Call blakeMix [2; 7; 8; 13] [8; 6]%N;   (* 596 *)
  Call blakeMix [3; 4; 9; 14] [2; 10]%N;   (* 597 *)
  Call blakeMix [0; 4; 8; 12] [6; 15]%N;   (* 598 *)
  Call blakeMix [1; 5; 9; 13] [14; 9]%N;   (* 599 *)
  Call blakeMix [2; 6; 10; 14] [11; 3]%N;   (* 600 *)
  Call blakeMix [3; 7; 11; 15] [0; 8]%N;   (* 601 *)
  Call blakeMix [0; 5; 10; 15] [12; 2]%N;   (* 602 *)
  Call blakeMix [1; 6; 11; 12] [13; 7]%N;   (* 603 *)
  Call blakeMix [2; 7; 8; 13] [1; 4]%N;   (* 604 *)
  Call blakeMix [3; 4; 9; 14] [10; 5]%N;   (* 605 *)
  Call blakeMix [0; 4; 8; 12] [10; 2]%N;   (* 606 *)
  Call blakeMix [1; 5; 9; 13] [8; 4]%N;   (* 607 *)
  Call blakeMix [2; 6; 10; 14] [7; 6]%N;   (* 608 *)
  Call blakeMix [3; 7; 11; 15] [1; 5]%N;   (* 609 *)
  Call blakeMix [0; 5; 10; 15] [15; 11]%N;   (* 610 *)
  Call blakeMix [1; 6; 11; 12] [9; 14]%N;   (* 611 *)
  Call blakeMix [2; 7; 8; 13] [3; 12]%N;   (* 612 *)
  Call blakeMix [3; 4; 9; 14] [13; 0]%N;   (* 613 *)
  Call blakeMix [0; 4; 8; 12] [0; 1]%N;   (* 614 *)
  Call blakeMix [1; 5; 9; 13] [2; 3]%N;   (* 615 *)
  Call blakeMix [2; 6; 10; 14] [4; 5]%N;   (* 616 *)
  Call blakeMix [3; 7; 11; 15] [6; 7]%N;   (* 617 *)
  Call blakeMix [0; 5; 10; 15] [8; 9]%N;   (* 618 *)
  Call blakeMix [1; 6; 11; 12] [10; 11]%N;   (* 619 *)
  Call blakeMix [2; 7; 8; 13] [12; 13]%N;   (* 620 *)
  Call blakeMix [3; 4; 9; 14] [14; 15]%N;   (* 621 *)
  Call blakeMix [0; 4; 8; 12] [14; 10]%N;   (* 622 *)
  Call blakeMix [1; 5; 9; 13] [4; 8]%N;   (* 623 *)
  Call blakeMix [2; 6; 10; 14] [9; 15]%N;   (* 624 *)
  Call blakeMix [3; 7; 11; 15] [13; 6]%N;   (* 625 *)
  Call blakeMix [0; 5; 10; 15] [1; 12]%N;   (* 626 *)
  Call blakeMix [1; 6; 11; 12] [0; 2]%N;   (* 627 *)
  Call blakeMix [2; 7; 8; 13] [11; 7]%N;   (* 628 *)
  Call blakeMix [3; 4; 9; 14] [5; 3]%N   (* 629 *)
].
