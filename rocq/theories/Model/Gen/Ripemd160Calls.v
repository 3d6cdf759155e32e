(** Generated by tools/gen_rounds.py from ripemd_160.h: the calls of lineLeft, lineRight
    in lines 492-651, in source order (last number of each line: source line). *)
From Coq Require Import List NArith.
From Verif.Model Require Import Call.
Import ListNotations.

Inductive fn := lineLeft | lineRight.
Local Notation a := 0%nat (only parsing).
Local Notation b := 1%nat (only parsing).
Local Notation c := 2%nat (only parsing).
Local Notation d := 3%nat (only parsing).
Local Notation e := 4%nat (only parsing).
Local Notation aa := 5%nat (only parsing).
Local Notation bb := 6%nat (only parsing).
Local Notation cc := 7%nat (only parsing).
Local Notation dd := 8%nat (only parsing).
Local Notation ee := 9%nat (only parsing).
Local Notation f1 := 0%N (only parsing).
Local Notation f2 := 1%N (only parsing).
Local Notation f3 := 2%N (only parsing).
Local Notation f4 := 3%N (only parsing).
Local Notation f5 := 4%N (only parsing).

Definition calls : list (call fn) := [
  Call lineLeft [a; b; c; d; e] [f1; 0; 0; 11]%N;   (* 492 *)
  Call lineLeft [e; a; b; c; d] [f1; 0; 1; 14]%N;   (* 493 *)
  Call lineRight [aa; bb; cc; dd; ee] [f5; 0x50a28be6; 5; 8]%N;   (* 494 *)
  Call lineRight [ee; aa; bb; cc; dd] [f5; 0x50a28be6; 14; 9]%N;   (* 495 *)
  Call lineLeft [d; e; a; b; c] [f1; 0; 2; 15]%N;   (* 496 *)
  Call lineLeft [c; d; e; a; b] [f1; 0; 3; 12]%N;   (* 497 *)
  Call lineRight [dd; ee; aa; bb; cc] [f5; 0x50a28be6; 7; 9]%N;   (* 498 *)
  Call lineRight [cc; dd; ee; aa; bb] [f5; 0x50a28be6; 0; 11]%N;   (* 499 *)
  Call lineLeft [b; c; d; e; a] [f1; 0; 4; 5]%N;   (* 500 *)
  Call lineLeft [a; b; c; d; e] [f1; 0; 5; 8]%N;   (* 501 *)
  Call lineRight [bb; cc; dd; ee; aa] [f5; 0x50a28be6; 9; 13]%N;   (* 502 *)
  Call lineRight [aa; bb; cc; dd; ee] [f5; 0x50a28be6; 2; 15]%N;   (* 503 *)
  Call lineLeft [e; a; b; c; d] [f1; 0; 6; 7]%N;   (* 504 *)
  Call lineLeft [d; e; a; b; c] [f1; 0; 7; 9]%N;   (* 505 *)
  Call lineRight [ee; aa; bb; cc; dd] [f5; 0x50a28be6; 11; 15]%N;   (* 506 *)
  Call lineRight [dd; ee; aa; bb; cc] [f5; 0x50a28be6; 4; 5]%N;   (* 507 *)
  Call lineLeft [c; d; e; a; b] [f1; 0; 8; 11]%N;   (* 508 *)
  Call lineLeft [b; c; d; e; a] [f1; 0; 9; 13]%N;   (* 509 *)
  Call lineRight [cc; dd; ee; aa; bb] [f5; 0x50a28be6; 13; 7]%N;   (* 510 *)
  Call lineRight [bb; cc; dd; ee; aa] [f5; 0x50a28be6; 6; 7]%N;   (* 511 *)
  Call lineLeft [a; b; c; d; e] [f1; 0; 10; 14]%N;   (* 512 *)
  Call lineLeft [e; a; b; c; d] [f1; 0; 11; 15]%N;   (* 513 *)
  Call lineRight [aa; bb; cc; dd; ee] [f5; 0x50a28be6; 15; 8]%N;   (* 514 *)
  Call lineRight [ee; aa; bb; cc; dd] [f5; 0x50a28be6; 8; 11]%N;   (* 515 *)
  Call lineLeft [d; e; a; b; c] [f1; 0; 12; 6]%N;   (* 516 *)
  Call lineLeft [c; d; e; a; b] [f1; 0; 13; 7]%N;   (* 517 *)
  Call lineRight [dd; ee; aa; bb; cc] [f5; 0x50a28be6; 1; 14]%N;   (* 518 *)
  Call lineRight [cc; dd; ee; aa; bb] [f5; 0x50a28be6; 10; 14]%N;   (* 519 *)
  Call lineLeft [b; c; d; e; a] [f1; 0; 14; 9]%N;   (* 520 *)
  Call lineLeft [a; b; c; d; e] [f1; 0; 15; 8]%N;   (* 521 *)
  Call lineRight [bb; cc; dd; ee; aa] [f5; 0x50a28be6; 3; 12]%N;   (* 522 *)
  Call lineRight [aa; bb; cc; dd; ee] [f5; 0x50a28be6; 12; 6]%N;   (* 523 *)
  Call lineLeft [e; a; b; c; d] [f2; 0x5a827999; 7; 7]%N;   (* 524 *)
  Call lineLeft [d; e; a; b; c] [f2; 0x5a827999; 4; 6]%N;   (* 525 *)
  Call lineRight [ee; aa; bb; cc; dd] [f4; 0x5c4dd124; 6; 9]%N;   (* 526 *)
  Call lineRight [dd; ee; aa; bb; cc] [f4; 0x5c4dd124; 11; 13]%N;   (* 527 *)
  Call lineLeft [c; d; e; a; b] [f2; 0x5a827999; 13; 8]%N;   (* 528 *)
  Call lineLeft [b; c; d; e; a] [f2; 0x5a827999; 1; 13]%N;   (* 529 *)
  Call lineRight [cc; dd; ee; aa; bb] [f4; 0x5c4dd124; 3; 15]%N;   (* 530 *)
  Call lineRight [bb; cc; dd; ee; aa] [f4; 0x5c4dd124; 7; 7]%N;   (* 531 *)
  Call lineLeft [a; b; c; d; e] [f2; 0x5a827999; 10; 11]%N;   (* 532 *)
  Call lineLeft [e; a; b; c; d] [f2; 0x5a827999; 6; 9]%N;   (* 533 *)
  Call lineRight [aa; bb; cc; dd; ee] [f4; 0x5c4dd124; 0; 12]%N;   (* 534 *)
  Call lineRight [ee; aa; bb; cc; dd] [f4; 0x5c4dd124; 13; 8]%N;   (* 535 *)
  Call lineLeft [d; e; a; b; c] [f2; 0x5a827999; 15; 7]%N;   (* 536 *)
  Call lineLeft [c; d; e; a; b] [f2; 0x5a827999; 3; 15]%N;   (* 537 *)
  Call lineRight [dd; ee; aa; bb; cc] [f4; 0x5c4dd124; 5; 9]%N;   (* 538 *)
  Call lineRight [cc; dd; ee; aa; bb] [f4; 0x5c4dd124; 10; 11]%N;   (* 539 *)
  Call lineLeft [b; c; d; e; a] [f2; 0x5a827999; 12; 7]%N;   (* 540 *)
  Call lineLeft [a; b; c; d; e] [f2; 0x5a827999; 0; 12]%N;   (* 541 *)
  Call lineRight [bb; cc; dd; ee; aa] [f4; 0x5c4dd124; 14; 7]%N;   (* 542 *)
  Call lineRight [aa; bb; cc; dd; ee] [f4; 0x5c4dd124; 15; 7]%N;   (* 543 *)
  Call lineLeft [e; a; b; c; d] [f2; 0x5a827999; 9; 15]%N;   (* 544 *)
  Call lineLeft [d; e; a; b; c] [f2; 0x5a827999; 5; 9]%N;   (* 545 *)
  Call lineRight [ee; aa; bb; cc; dd] [f4; 0x5c4dd124; 8; 12]%N;   (* 546 *)
  Call lineRight [dd; ee; aa; bb; cc] [f4; 0x5c4dd124; 12; 7]%N;   (* 547 *)
  Call lineLeft [c; d; e; a; b] [f2; 0x5a827999; 2; 11]%N;   (* 548 *)
  Call lineLeft [b; c; d; e; a] [f2; 0x5a827999; 14; 7]%N;   (* 549 *)
  Call lineRight [cc; dd; ee; aa; bb] [f4; 0x5c4dd124; 4; 6]%N;   (* 550 *)
  Call lineRight [bb; cc; dd; ee; aa] [f4; 0x5c4dd124; 9; 15]%N;   (* 551 *)
  Call lineLeft [a; b; c; d; e] [f2; 0x5a827999; 11; 13]%N;   (* 552 *)
  Call lineLeft [e; a; b; c; d] [f2; 0x5a827999; 8; 12]%N;   (* 553 *)
  Call lineRight [aa; bb; cc; dd; ee] [f4; 0x5c4dd124; 1; 13]%N;   (* 554 *)
  Call lineRight [ee; aa; bb; cc; dd] [f4; 0x5c4dd124; 2; 11]%N;   (* 555 *)
  Call lineLeft [d; e; a; b; c] [f3; 0x6ed9eba1; 3; 11]%N;   (* 556 *)
  Call lineLeft [c; d; e; a; b] [f3; 0x6ed9eba1; 10; 13]%N;   (* 557 *)
  Call lineRight [dd; ee; aa; bb; cc] [f3; 0x6d703ef3; 15; 9]%N;   (* 558 *)
  Call lineRight [cc; dd; ee; aa; bb] [f3; 0x6d703ef3; 5; 7]%N;   (* 559 *)
  Call lineLeft [b; c; d; e; a] [f3; 0x6ed9eba1; 14; 6]%N;   (* 560 *)
  Call lineLeft [a; b; c; d; e] [f3; 0x6ed9eba1; 4; 7]%N;   (* 561 *)
  Call lineRight [bb; cc; dd; ee; aa] [f3; 0x6d703ef3; 1; 15]%N;   (* 562 *)
  Call lineRight [aa; bb; cc; dd; ee] [f3; 0x6d703ef3; 3; 11]%N;   (* 563 *)
  Call lineLeft [e; a; b; c; d] [f3; 0x6ed9eba1; 9; 14]%N;   (* 564 *)
  Call lineLeft [d; e; a; b; c] [f3; 0x6ed9eba1; 15; 9]%N;   (* 565 *)
  Call lineRight [ee; aa; bb; cc; dd] [f3; 0x6d703ef3; 7; 8]%N;   (* 566 *)
  Call lineRight [dd; ee; aa; bb; cc] [f3; 0x6d703ef3; 14; 6]%N;   (* 567 *)
  Call lineLeft [c; d; e; a; b] [f3; 0x6ed9eba1; 8; 13]%N;   (* 568 *)
  Call lineLeft [b; c; d; e; a] [f3; 0x6ed9eba1; 1; 15]%N;   (* 569 *)
  Call lineRight [cc; dd; ee; aa; bb] [f3; 0x6d703ef3; 6; 6]%N;   (* 570 *)
  Call lineRight [bb; cc; dd; ee; aa] [f3; 0x6d703ef3; 9; 14]%N;   (* 571 *)
  Call lineLeft [a; b; c; d; e] [f3; 0x6ed9eba1; 2; 14]%N;   (* 572 *)
  Call lineLeft [e; a; b; c; d] [f3; 0x6ed9eba1; 7; 8]%N;   (* 573 *)
  Call lineRight [aa; bb; cc; dd; ee] [f3; 0x6d703ef3; 11; 12]%N;   (* 574 *)
  Call lineRight [ee; aa; bb; cc; dd] [f3; 0x6d703ef3; 8; 13]%N;   (* 575 *)
  Call lineLeft [d; e; a; b; c] [f3; 0x6ed9eba1; 0; 13]%N;   (* 576 *)
  Call lineLeft [c; d; e; a; b] [f3; 0x6ed9eba1; 6; 6]%N;   (* 577 *)
  Call lineRight [dd; ee; aa; bb; cc] [f3; 0x6d703ef3; 12; 5]%N;   (* 578 *)
  Call lineRight [cc; dd; ee; aa; bb] [f3; 0x6d703ef3; 2; 14]%N;   (* 579 *)
  Call lineLeft [b; c; d; e; a] [f3; 0x6ed9eba1; 13; 5]%N;   (* 580 *)
  Call lineLeft [a; b; c; d; e] [f3; 0x6ed9eba1; 11; 12]%N;   (* 581 *)
  Call lineRight [bb; cc; dd; ee; aa] [f3; 0x6d703ef3; 10; 13]%N;   (* 582 *)
  Call lineRight [aa; bb; cc; dd; ee] [f3; 0x6d703ef3; 0; 13]%N;   (* 583 *)
  Call lineLeft [e; a; b; c; d] [f3; 0x6ed9eba1; 5; 7]%N;   (* 584 *)
  Call lineLeft [d; e; a; b; c] [f3; 0x6ed9eba1; 12; 5]%N;   (* 585 *)
  Call lineRight [ee; aa; bb; cc; dd] [f3; 0x6d703ef3; 4; 7]%N;   (* 586 *)
  Call lineRight [dd; ee; aa; bb; cc] [f3; 0x6d703ef3; 13; 5]%N;   (* 587 *)
  Call lineLeft [c; d; e; a; b] [f4; 0x8f1bbcdc; 1; 11]%N;   (* 588 *)
  Call lineLeft [b; c; d; e; a] [f4; 0x8f1bbcdc; 9; 12]%N;   (* 589 *)
  Call lineRight [cc; dd; ee; aa; bb] [f2; 0x7a6d76e9; 8; 15]%N;   (* 590 *)
  Call lineRight [bb; cc; dd; ee; aa] [f2; 0x7a6d76e9; 6; 5]%N;   (* 591 *)
  Call lineLeft [a; b; c; d; e] [f4; 0x8f1bbcdc; 11; 14]%N;   (* 592 *)
  Call lineLeft [e; a; b; c; d] [f4; 0x8f1bbcdc; 10; 15]%N;   (* 593 *)
  Call lineRight [aa; bb; cc; dd; ee] [f2; 0x7a6d76e9; 4; 8]%N;   (* 594 *)
  Call lineRight [ee; aa; bb; cc; dd] [f2; 0x7a6d76e9; 1; 11]%N;   (* 595 *)
  Call lineLeft [d; e; a; b; c] [f4; 0x8f1bbcdc; 0; 14]%N;   (* 596 *)
  Call lineLeft [c; d; e; a; b] [f4; 0x8f1bbcdc; 8; 15]%N;   (* 597 *)
  Call lineRight [dd; ee; aa; bb; cc] [f2; 0x7a6d76e9; 3; 14]%N;   (* 598 *)
  Call lineRight [cc; dd; ee; aa; bb] [f2; 0x7a6d76e9; 11; 14]%N;   (* 599 *)
  Call lineLeft [b; c; d; e; a] [f4; 0x8f1bbcdc; 12; 9]%N;   (* 600 *)
  Call lineLeft [a; b; c; d; e] [f4; 0x8f1bbcdc; 4; 8]%N;   (* 601 *)
  Call lineRight [bb; cc; dd; ee; aa] [f2; 0x7a6d76e9; 15; 6]%N;   (* 602 *)
  Call lineRight [aa; bb; cc; dd; ee] [f2; 0x7a6d76e9; 0; 14]%N;   (* 603 *)
  Call lineLeft [e; a; b; c; d] [f4; 0x8f1bbcdc; 13; 9]%N;   (* 604 *)
  Call lineLeft [d; e; a; b; c] [f4; 0x8f1bbcdc; 3; 14]%N;   (* 605 *)
  Call lineRight [ee; aa; bb; cc; dd] [f2; 0x7a6d76e9; 5; 6]%N;   (* 606 *)
  Call lineRight [dd; ee; aa; bb; cc] [f2; 0x7a6d76e9; 12; 9]%N;   (* 607 *)
  Call lineLeft [c; d; e; a; b] [f4; 0x8f1bbcdc; 7; 5]%N;   (* 608 *)
  Call lineLeft [b; c; d; e; a] [f4; 0x8f1bbcdc; 15; 6]%N;   (* 609 *)
  Call lineRight [cc; dd; ee; aa; bb] [f2; 0x7a6d76e9; 2; 12]%N;   (* 610 *)
  Call lineRight [bb; cc; dd; ee; aa] [f2; 0x7a6d76e9; 13; 9]%N;   (* 611 *)
  Call lineLeft [a; b; c; d; e] [f4; 0x8f1bbcdc; 14; 8]%N;   (* 612 *)
  Call lineLeft [e; a; b; c; d] [f4; 0x8f1bbcdc; 5; 6]%N;   (* 613 *)
  Call lineRight [aa; bb; cc; dd; ee] [f2; 0x7a6d76e9; 9; 12]%N;   (* 614 *)
  Call lineRight [ee; aa; bb; cc; dd] [f2; 0x7a6d76e9; 7; 5]%N;   (* 615 *)
  Call lineLeft [d; e; a; b; c] [f4; 0x8f1bbcdc; 6; 5]%N;   (* 616 *)
  Call lineLeft [c; d; e; a; b] [f4; 0x8f1bbcdc; 2; 12]%N;   (* 617 *)
  Call lineRight [dd; ee; aa; bb; cc] [f2; 0x7a6d76e9; 10; 15]%N;   (* 618 *)
  Call lineRight [cc; dd; ee; aa; bb] [f2; 0x7a6d76e9; 14; 8]%N;   (* 619 *)
  Call lineLeft [b; c; d; e; a] [f5; 0xa953fd4e; 4; 9]%N;   (* 620 *)
  Call lineLeft [a; b; c; d; e] [f5; 0xa953fd4e; 0; 15]%N;   (* 621 *)
  Call lineRight [bb; cc; dd; ee; aa] [f1; 0; 12; 8]%N;   (* 622 *)
  Call lineRight [aa; bb; cc; dd; ee] [f1; 0; 15; 5]%N;   (* 623 *)
  Call lineLeft [e; a; b; c; d] [f5; 0xa953fd4e; 5; 5]%N;   (* 624 *)
  Call lineLeft [d; e; a; b; c] [f5; 0xa953fd4e; 9; 11]%N;   (* 625 *)
  Call lineRight [ee; aa; bb; cc; dd] [f1; 0; 10; 12]%N;   (* 626 *)
  Call lineRight [dd; ee; aa; bb; cc] [f1; 0; 4; 9]%N;   (* 627 *)
  Call lineLeft [c; d; e; a; b] [f5; 0xa953fd4e; 7; 6]%N;   (* 628 *)
  Call lineLeft [b; c; d; e; a] [f5; 0xa953fd4e; 12; 8]%N;   (* 629 *)
  Call lineRight [cc; dd; ee; aa; bb] [f1; 0; 1; 12]%N;   (* 630 *)
  Call lineRight [bb; cc; dd; ee; aa] [f1; 0; 5; 5]%N;   (* 631 *)
  Call lineLeft [a; b; c; d; e] [f5; 0xa953fd4e; 2; 13]%N;   (* 632 *)
  Call lineLeft [e; a; b; c; d] [f5; 0xa953fd4e; 10; 12]%N;   (* 633 *)
  Call lineRight [aa; bb; cc; dd; ee] [f1; 0; 8; 14]%N;   (* 634 *)
  Call lineRight [ee; aa; bb; cc; dd] [f1; 0; 7; 6]%N;   (* 635 *)
  Call lineLeft [d; e; a; b; c] [f5; 0xa953fd4e; 14; 5]%N;   (* 636 *)
  Call lineLeft [c; d; e; a; b] [f5; 0xa953fd4e; 1; 12]%N;   (* 637 *)
  Call lineRight [dd; ee; aa; bb; cc] [f1; 0; 6; 8]%N;   (* 638 *)
  Call lineRight [cc; dd; ee; aa; bb] [f1; 0; 2; 13]%N;   (* 639 *)
  Call lineLeft [b; c; d; e; a] [f5; 0xa953fd4e; 3; 13]%N;   (* 640 *)
  Call lineLeft [a; b; c; d; e] [f5; 0xa953fd4e; 8; 14]%N;   (* 641 *)
  Call lineRight [bb; cc; dd; ee; aa] [f1; 0; 13; 6]%N;   (* 642 *)
  Call lineRight [aa; bb; cc; dd; ee] [f1; 0; 14; 5]%N;   (* 643 *)
  Call lineLeft [e; a; b; c; d] [f5; 0xa953fd4e; 11; 11]%N;   (* 644 *)
  Call lineLeft [d; e; a; b; c] [f5; 0xa953fd4e; 6; 8]%N;   (* 645 *)
  Call lineRight [ee; aa; bb; cc; dd] [f1; 0; 0; 15]%N;   (* 646 *)
  Call lineRight [dd; ee; aa; bb; cc] [f1; 0; 3; 13]%N;   (* 647 *)
  Call lineLeft [c; d; e; a; b] [f5; 0xa953fd4e; 15; 5]%N;   (* 648 *)
  Call lineLeft [b; c; d; e; a] [f5; 0xa953fd4e; 13; 6]%N;   (* 649 *)
  Call lineRight [cc; dd; ee; aa; bb] [f1; 0; 9; 11]%N;   (* 650 *)
  Call lineRight [bb; cc; dd; ee; aa] [f1; 0; 11; 11]%N   (* 651 *)
].
