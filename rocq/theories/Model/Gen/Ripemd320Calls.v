(** Generated by tools/gen_rounds.py from ripemd_320.h: the calls of lineLeft, lineRight, swap
    in lines 506-674, in source order (last number of each line: source line). *)
From Coq Require Import List NArith.
From Verif.Model Require Import Call.
Import ListNotations.

Inductive fn := lineLeft | lineRight | swap.
Local Notation a := 0%nat (only parsing).
Local Notation b := 1%nat (only parsing).
Local Notation c := 2%nat (only parsing).
Local Notation d := 3%nat (only parsing).
Local Notation e := 4%nat (only parsing).
Local Notation aa := 5%nat (only parsing).
Local Notation bb := 6%nat (only parsing).
Local Notation cc := 7%nat (only parsing).
Local Notation dd := 8%nat (only parsing).
Local Notation ee := 9%nat (only parsing).
Local Notation f1 := 0%N (only parsing).
Local Notation f2 := 1%N (only parsing).
Local Notation f3 := 2%N (only parsing).
Local Notation f4 := 3%N (only parsing).
Local Notation f5 := 4%N (only parsing).

Definition calls : list (call fn) := [
  Call lineLeft [a; b; c; d; e] [f1; 0; 0; 11]%N;   (* 506 *)
  Call lineLeft [e; a; b; c; d] [f1; 0; 1; 14]%N;   (* 507 *)
  Call lineRight [aa; bb; cc; dd; ee] [f5; 0x50a28be6; 5; 8]%N;   (* 508 *)
  Call lineRight [ee; aa; bb; cc; dd] [f5; 0x50a28be6; 14; 9]%N;   (* 509 *)
  Call lineLeft [d; e; a; b; c] [f1; 0; 2; 15]%N;   (* 510 *)
  Call lineLeft [c; d; e; a; b] [f1; 0; 3; 12]%N;   (* 511 *)
  Call lineRight [dd; ee; aa; bb; cc] [f5; 0x50a28be6; 7; 9]%N;   (* 512 *)
  Call lineRight [cc; dd; ee; aa; bb] [f5; 0x50a28be6; 0; 11]%N;   (* 513 *)
  Call lineLeft [b; c; d; e; a] [f1; 0; 4; 5]%N;   (* 514 *)
  Call lineLeft [a; b; c; d; e] [f1; 0; 5; 8]%N;   (* 515 *)
  Call lineRight [bb; cc; dd; ee; aa] [f5; 0x50a28be6; 9; 13]%N;   (* 516 *)
  Call lineRight [aa; bb; cc; dd; ee] [f5; 0x50a28be6; 2; 15]%N;   (* 517 *)
  Call lineLeft [e; a; b; c; d] [f1; 0; 6; 7]%N;   (* 518 *)
  Call lineLeft [d; e; a; b; c] [f1; 0; 7; 9]%N;   (* 519 *)
  Call lineRight [ee; aa; bb; cc; dd] [f5; 0x50a28be6; 11; 15]%N;   (* 520 *)
  Call lineRight [dd; ee; aa; bb; cc] [f5; 0x50a28be6; 4; 5]%N;   (* 521 *)
  Call lineLeft [c; d; e; a; b] [f1; 0; 8; 11]%N;   (* 522 *)
  Call lineLeft [b; c; d; e; a] [f1; 0; 9; 13]%N;   (* 523 *)
  Call lineRight [cc; dd; ee; aa; bb] [f5; 0x50a28be6; 13; 7]%N;   (* 524 *)
  Call lineRight [bb; cc; dd; ee; aa] [f5; 0x50a28be6; 6; 7]%N;   (* 525 *)
  Call lineLeft [a; b; c; d; e] [f1; 0; 10; 14]%N;   (* 526 *)
  Call lineLeft [e; a; b; c; d] [f1; 0; 11; 15]%N;   (* 527 *)
  Call lineRight [aa; bb; cc; dd; ee] [f5; 0x50a28be6; 15; 8]%N;   (* 528 *)
  Call lineRight [ee; aa; bb; cc; dd] [f5; 0x50a28be6; 8; 11]%N;   (* 529 *)
  Call lineLeft [d; e; a; b; c] [f1; 0; 12; 6]%N;   (* 530 *)
  Call lineLeft [c; d; e; a; b] [f1; 0; 13; 7]%N;   (* 531 *)
  Call lineRight [dd; ee; aa; bb; cc] [f5; 0x50a28be6; 1; 14]%N;   (* 532 *)
  Call lineRight [cc; dd; ee; aa; bb] [f5; 0x50a28be6; 10; 14]%N;   (* 533 *)
  Call lineLeft [b; c; d; e; a] [f1; 0; 14; 9]%N;   (* 534 *)
  Call lineLeft [a; b; c; d; e] [f1; 0; 15; 8]%N;   (* 535 *)
  Call lineRight [bb; cc; dd; ee; aa] [f5; 0x50a28be6; 3; 12]%N;   (* 536 *)
  Call lineRight [aa; bb; cc; dd; ee] [f5; 0x50a28be6; 12; 6]%N;   (* 537 *)
  Call swap [a; aa] []%N;   (* 538 *)
  Call lineLeft [e; a; b; c; d] [f2; 0x5a827999; 7; 7]%N;   (* 540 *)
  Call lineLeft [d; e; a; b; c] [f2; 0x5a827999; 4; 6]%N;   (* 541 *)
  Call lineRight [ee; aa; bb; cc; dd] [f4; 0x5c4dd124; 6; 9]%N;   (* 542 *)
  Call lineRight [dd; ee; aa; bb; cc] [f4; 0x5c4dd124; 11; 13]%N;   (* 543 *)
  Call lineLeft [c; d; e; a; b] [f2; 0x5a827999; 13; 8]%N;   (* 544 *)
  Call lineLeft [b; c; d; e; a] [f2; 0x5a827999; 1; 13]%N;   (* 545 *)
  Call lineRight [cc; dd; ee; aa; bb] [f4; 0x5c4dd124; 3; 15]%N;   (* 546 *)
  Call lineRight [bb; cc; dd; ee; aa] [f4; 0x5c4dd124; 7; 7]%N;   (* 547 *)
  Call lineLeft [a; b; c; d; e] [f2; 0x5a827999; 10; 11]%N;   (* 548 *)
  Call lineLeft [e; a; b; c; d] [f2; 0x5a827999; 6; 9]%N;   (* 549 *)
  Call lineRight [aa; bb; cc; dd; ee] [f4; 0x5c4dd124; 0; 12]%N;   (* 550 *)
  Call lineRight [ee; aa; bb; cc; dd] [f4; 0x5c4dd124; 13; 8]%N;   (* 551 *)
  Call lineLeft [d; e; a; b; c] [f2; 0x5a827999; 15; 7]%N;   (* 552 *)
  Call lineLeft [c; d; e; a; b] [f2; 0x5a827999; 3; 15]%N;   (* 553 *)
  Call lineRight [dd; ee; aa; bb; cc] [f4; 0x5c4dd124; 5; 9]%N;   (* 554 *)
  Call lineRight [cc; dd; ee; aa; bb] [f4; 0x5c4dd124; 10; 11]%N;   (* 555 *)
  Call lineLeft [b; c; d; e; a] [f2; 0x5a827999; 12; 7]%N;   (* 556 *)
  Call lineLeft [a; b; c; d; e] [f2; 0x5a827999; 0; 12]%N;   (* 557 *)
  Call lineRight [bb; cc; dd; ee; aa] [f4; 0x5c4dd124; 14; 7]%N;   (* 558 *)
  Call lineRight [aa; bb; cc; dd; ee] [f4; 0x5c4dd124; 15; 7]%N;   (* 559 *)
  Call lineLeft [e; a; b; c; d] [f2; 0x5a827999; 9; 15]%N;   (* 560 *)
  Call lineLeft [d; e; a; b; c] [f2; 0x5a827999; 5; 9]%N;   (* 561 *)
  Call lineRight [ee; aa; bb; cc; dd] [f4; 0x5c4dd124; 8; 12]%N;   (* 562 *)
  Call lineRight [dd; ee; aa; bb; cc] [f4; 0x5c4dd124; 12; 7]%N;   (* 563 *)
  Call lineLeft [c; d; e; a; b] [f2; 0x5a827999; 2; 11]%N;   (* 564 *)
  Call lineLeft [b; c; d; e; a] [f2; 0x5a827999; 14; 7]%N;   (* 565 *)
  Call lineRight [cc; dd; ee; aa; bb] [f4; 0x5c4dd124; 4; 6]%N;   (* 566 *)
  Call lineRight [bb; cc; dd; ee; aa] [f4; 0x5c4dd124; 9; 15]%N;   (* 567 *)
  Call lineLeft [a; b; c; d; e] [f2; 0x5a827999; 11; 13]%N;   (* 568 *)
  Call lineLeft [e; a; b; c; d] [f2; 0x5a827999; 8; 12]%N;   (* 569 *)
  Call lineRight [aa; bb; cc; dd; ee] [f4; 0x5c4dd124; 1; 13]%N;   (* 570 *)
  Call lineRight [ee; aa; bb; cc; dd] [f4; 0x5c4dd124; 2; 11]%N;   (* 571 *)
  Call swap [b; bb] []%N;   (* 572 *)
  Call lineLeft [d; e; a; b; c] [f3; 0x6ed9eba1; 3; 11]%N;   (* 574 *)
  Call lineLeft [c; d; e; a; b] [f3; 0x6ed9eba1; 10; 13]%N;   (* 575 *)
  Call lineRight [dd; ee; aa; bb; cc] [f3; 0x6d703ef3; 15; 9]%N;   (* 576 *)
  Call lineRight [cc; dd; ee; aa; bb] [f3; 0x6d703ef3; 5; 7]%N;   (* 577 *)
  Call lineLeft [b; c; d; e; a] [f3; 0x6ed9eba1; 14; 6]%N;   (* 578 *)
  Call lineLeft [a; b; c; d; e] [f3; 0x6ed9eba1; 4; 7]%N;   (* 579 *)
  Call lineRight [bb; cc; dd; ee; aa] [f3; 0x6d703ef3; 1; 15]%N;   (* 580 *)
  Call lineRight [aa; bb; cc; dd; ee] [f3; 0x6d703ef3; 3; 11]%N;   (* 581 *)
  Call lineLeft [e; a; b; c; d] [f3; 0x6ed9eba1; 9; 14]%N;   (* 582 *)
  Call lineLeft [d; e; a; b; c] [f3; 0x6ed9eba1; 15; 9]%N;   (* 583 *)
  Call lineRight [ee; aa; bb; cc; dd] [f3; 0x6d703ef3; 7; 8]%N;   (* 584 *)
  Call lineRight [dd; ee; aa; bb; cc] [f3; 0x6d703ef3; 14; 6]%N;   (* 585 *)
  Call lineLeft [c; d; e; a; b] [f3; 0x6ed9eba1; 8; 13]%N;   (* 586 *)
  Call lineLeft [b; c; d; e; a] [f3; 0x6ed9eba1; 1; 15]%N;   (* 587 *)
  Call lineRight [cc; dd; ee; aa; bb] [f3; 0x6d703ef3; 6; 6]%N;   (* 588 *)
  Call lineRight [bb; cc; dd; ee; aa] [f3; 0x6d703ef3; 9; 14]%N;   (* 589 *)
  Call lineLeft [a; b; c; d; e] [f3; 0x6ed9eba1; 2; 14]%N;   (* 590 *)
  Call lineLeft [e; a; b; c; d] [f3; 0x6ed9eba1; 7; 8]%N;   (* 591 *)
  Call lineRight [aa; bb; cc; dd; ee] [f3; 0x6d703ef3; 11; 12]%N;   (* 592 *)
  Call lineRight [ee; aa; bb; cc; dd] [f3; 0x6d703ef3; 8; 13]%N;   (* 593 *)
  Call lineLeft [d; e; a; b; c] [f3; 0x6ed9eba1; 0; 13]%N;   (* 594 *)
  Call lineLeft [c; d; e; a; b] [f3; 0x6ed9eba1; 6; 6]%N;   (* 595 *)
  Call lineRight [dd; ee; aa; bb; cc] [f3; 0x6d703ef3; 12; 5]%N;   (* 596 *)
  Call lineRight [cc; dd; ee; aa; bb] [f3; 0x6d703ef3; 2; 14]%N;   (* 597 *)
  Call lineLeft [b; c; d; e; a] [f3; 0x6ed9eba1; 13; 5]%N;   (* 598 *)
  Call lineLeft [a; b; c; d; e] [f3; 0x6ed9eba1; 11; 12]%N;   (* 599 *)
  Call lineRight [bb; cc; dd; ee; aa] [f3; 0x6d703ef3; 10; 13]%N;   (* 600 *)
  Call lineRight [aa; bb; cc; dd; ee] [f3; 0x6d703ef3; 0; 13]%N;   (* 601 *)
  Call lineLeft [e; a; b; c; d] [f3; 0x6ed9eba1; 5; 7]%N;   (* 602 *)
  Call lineLeft [d; e; a; b; c] [f3; 0x6ed9eba1; 12; 5]%N;   (* 603 *)
  Call lineRight [ee; aa; bb; cc; dd] [f3; 0x6d703ef3; 4; 7]%N;   (* 604 *)
  Call lineRight [dd; ee; aa; bb; cc] [f3; 0x6d703ef3; 13; 5]%N;   (* 605 *)
  Call swap [c; cc] []%N;   (* 606 *)
  Call lineLeft [c; d; e; a; b] [f4; 0x8f1bbcdc; 1; 11]%N;   (* 608 *)
  Call lineLeft [b; c; d; e; a] [f4; 0x8f1bbcdc; 9; 12]%N;   (* 609 *)
  Call lineRight [cc; dd; ee; aa; bb] [f2; 0x7a6d76e9; 8; 15]%N;   (* 610 *)
  Call lineRight [bb; cc; dd; ee; aa] [f2; 0x7a6d76e9; 6; 5]%N;   (* 611 *)
  Call lineLeft [a; b; c; d; e] [f4; 0x8f1bbcdc; 11; 14]%N;   (* 612 *)
  Call lineLeft [e; a; b; c; d] [f4; 0x8f1bbcdc; 10; 15]%N;   (* 613 *)
  Call lineRight [aa; bb; cc; dd; ee] [f2; 0x7a6d76e9; 4; 8]%N;   (* 614 *)
  Call lineRight [ee; aa; bb; cc; dd] [f2; 0x7a6d76e9; 1; 11]%N;   (* 615 *)
  Call lineLeft [d; e; a; b; c] [f4; 0x8f1bbcdc; 0; 14]%N;   (* 616 *)
  Call lineLeft [c; d; e; a; b] [f4; 0x8f1bbcdc; 8; 15]%N;   (* 617 *)
  Call lineRight [dd; ee; aa; bb; cc] [f2; 0x7a6d76e9; 3; 14]%N;   (* 618 *)
  Call lineRight [cc; dd; ee; aa; bb] [f2; 0x7a6d76e9; 11; 14]%N;   (* 619 *)
  Call lineLeft [b; c; d; e; a] [f4; 0x8f1bbcdc; 12; 9]%N;   (* 620 *)
  Call lineLeft [a; b; c; d; e] [f4; 0x8f1bbcdc; 4; 8]%N;   (* 621 *)
  Call lineRight [bb; cc; dd; ee; aa] [f2; 0x7a6d76e9; 15; 6]%N;   (* 622 *)
  Call lineRight [aa; bb; cc; dd; ee] [f2; 0x7a6d76e9; 0; 14]%N;   (* 623 *)
  Call lineLeft [e; a; b; c; d] [f4; 0x8f1bbcdc; 13; 9]%N;   (* 624 *)
  Call lineLeft [d; e; a; b; c] [f4; 0x8f1bbcdc; 3; 14]%N;   (* 625 *)
  Call lineRight [ee; aa; bb; cc; dd] [f2; 0x7a6d76e9; 5; 6]%N;   (* 626 *)
  Call lineRight [dd; ee; aa; bb; cc] [f2; 0x7a6d76e9; 12; 9]%N;   (* 627 *)
  Call lineLeft [c; d; e; a; b] [f4; 0x8f1bbcdc; 7; 5]%N;   (* 628 *)
  Call lineLeft [b; c; d; e; a] [f4; 0x8f1bbcdc; 15; 6]%N;   (* 629 *)
  Call lineRight [cc; dd; ee; aa; bb] [f2; 0x7a6d76e9; 2; 12]%N;   (* 630 *)
  Call lineRight [bb; cc; dd; ee; aa] [f2; 0x7a6d76e9; 13; 9]%N;   (* 631 *)
  Call lineLeft [a; b; c; d; e] [f4; 0x8f1bbcdc; 14; 8]%N;   (* 632 *)
  Call lineLeft [e; a; b; c; d] [f4; 0x8f1bbcdc; 5; 6]%N;   (* 633 *)
  Call lineRight [aa; bb; cc; dd; ee] [f2; 0x7a6d76e9; 9; 12]%N;   (* 634 *)
  Call lineRight [ee; aa; bb; cc; dd] [f2; 0x7a6d76e9; 7; 5]%N;   (* 635 *)
  Call lineLeft [d; e; a; b; c] [f4; 0x8f1bbcdc; 6; 5]%N;   (* 636 *)
  Call lineLeft [c; d; e; a; b] [f4; 0x8f1bbcdc; 2; 12]%N;   (* 637 *)
  Call lineRight [dd; ee; aa; bb; cc] [f2; 0x7a6d76e9; 10; 15]%N;   (* 638 *)
  Call lineRight [cc; dd; ee; aa; bb] [f2; 0x7a6d76e9; 14; 8]%N;   (* 639 *)
  Call swap [d; dd] []%N;   (* 640 *)
  Call lineLeft [b; c; d; e; a] [f5; 0xa953fd4e; 4; 9]%N;   (* 642 *)
  Call lineLeft [a; b; c; d; e] [f5; 0xa953fd4e; 0; 15]%N;   (* 643 *)
  Call lineRight [bb; cc; dd; ee; aa] [f1; 0; 12; 8]%N;   (* 644 *)
  Call lineRight [aa; bb; cc; dd; ee] [f1; 0; 15; 5]%N;   (* 645 *)
  Call lineLeft [e; a; b; c; d] [f5; 0xa953fd4e; 5; 5]%N;   (* 646 *)
  Call lineLeft [d; e; a; b; c] [f5; 0xa953fd4e; 9; 11]%N;   (* 647 *)
  Call lineRight [ee; aa; bb; cc; dd] [f1; 0; 10; 12]%N;   (* 648 *)
  Call lineRight [dd; ee; aa; bb; cc] [f1; 0; 4; 9]%N;   (* 649 *)
  Call lineLeft [c; d; e; a; b] [f5; 0xa953fd4e; 7; 6]%N;   (* 650 *)
  Call lineLeft [b; c; d; e; a] [f5; 0xa953fd4e; 12; 8]%N;   (* 651 *)
  Call lineRight [cc; dd; ee; aa; bb] [f1; 0; 1; 12]%N;   (* 652 *)
  Call lineRight [bb; cc; dd; ee; aa] [f1; 0; 5; 5]%N;   (* 653 *)
  Call lineLeft [a; b; c; d; e] [f5; 0xa953fd4e; 2; 13]%N;   (* 654 *)
  Call lineLeft [e; a; b; c; d] [f5; 0xa953fd4e; 10; 12]%N;   (* 655 *)
  Call lineRight [aa; bb; cc; dd; ee] [f1; 0; 8; 14]%N;   (* 656 *)
  Call lineRight [ee; aa; bb; cc; dd] [f1; 0; 7; 6]%N;   (* 657 *)
  Call lineLeft [d; e; a; b; c] [f5; 0xa953fd4e; 14; 5]%N;   (* 658 *)
  Call lineLeft [c; d; e; a; b] [f5; 0xa953fd4e; 1; 12]%N;   (* 659 *)
  Call lineRight [dd; ee; aa; bb; cc] [f1; 0; 6; 8]%N;   (* 660 *)
  Call lineRight [cc; dd; ee; aa; bb] [f1; 0; 2; 13]%N;   (* 661 *)
  Call lineLeft [b; c; d; e; a] [f5; 0xa953fd4e; 3; 13]%N;   (* 662 *)
  Call lineLeft [a; b; c; d; e] [f5; 0xa953fd4e; 8; 14]%N;   (* 663 *)
  Call lineRight [bb; cc; dd; ee; aa] [f1; 0; 13; 6]%N;   (* 664 *)
  Call lineRight [aa; bb; cc; dd; ee] [f1; 0; 14; 5]%N;   (* 665 *)
  Call lineLeft [e; a; b; c; d] [f5; 0xa953fd4e; 11; 11]%N;   (* 666 *)
  Call lineLeft [d; e; a; b; c] [f5; 0xa953fd4e; 6; 8]%N;   (* 667 *)
  Call lineRight [ee; aa; bb; cc; dd] [f1; 0; 0; 15]%N;   (* 668 *)
  Call lineRight [dd; ee; aa; bb; cc] [f1; 0; 3; 13]%N;   (* 669 *)
  Call lineLeft [c; d; e; a; b] [f5; 0xa953fd4e; 15; 5]%N;   (* 670 *)
  Call lineLeft [b; c; d; e; a] [f5; 0xa953fd4e; 13; 6]%N;   (* 671 *)
  Call lineRight [cc; dd; ee; aa; bb] [f1; 0; 9; 11]%N;   (* 672 *)
  Call lineRight [bb; cc; dd; ee; aa] [f1; 0; 11; 11]%N;   (* 673 *)
  Call swap [e; ee] []%N   (* 674 *)
].
