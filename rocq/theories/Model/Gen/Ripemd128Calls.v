(** Generated by tools/gen_rounds.py from ripemd_128.h: the calls of lineLeft, lineRight
    in lines 484-611, in source order (last number of each line: source line). *)
From Coq Require Import List NArith.
From Verif.Model Require Import Call.
Import ListNotations.

Inductive fn := lineLeft | lineRight.
Local Notation a := 0%nat (only parsing).
Local Notation b := 1%nat (only parsing).
Local Notation c := 2%nat (only parsing).
Local Notation d := 3%nat (only parsing).
Local Notation aa := 4%nat (only parsing).
Local Notation bb := 5%nat (only parsing).
Local Notation cc := 6%nat (only parsing).
Local Notation dd := 7%nat (only parsing).
Local Notation f1 := 0%N (only parsing).
Local Notation f2 := 1%N (only parsing).
Local Notation f3 := 2%N (only parsing).
Local Notation f4 := 3%N (only parsing).

Definition calls : list (call fn) := [
  Call lineLeft [a; b; c; d] [f1; 0; 0; 11]%N;   (* 484 *)
  Call lineLeft [d; a; b; c] [f1; 0; 1; 14]%N;   (* 485 *)
  Call lineRight [aa; bb; cc; dd] [f4; 0x50a28be6; 5; 8]%N;   (* 486 *)
  Call lineRight [dd; aa; bb; cc] [f4; 0x50a28be6; 14; 9]%N;   (* 487 *)
  Call lineLeft [c; d; a; b] [f1; 0; 2; 15]%N;   (* 488 *)
  Call lineLeft [b; c; d; a] [f1; 0; 3; 12]%N;   (* 489 *)
  Call lineRight [cc; dd; aa; bb] [f4; 0x50a28be6; 7; 9]%N;   (* 490 *)
  Call lineRight [bb; cc; dd; aa] [f4; 0x50a28be6; 0; 11]%N;   (* 491 *)
  Call lineLeft [a; b; c; d] [f1; 0; 4; 5]%N;   (* 492 *)
  Call lineLeft [d; a; b; c] [f1; 0; 5; 8]%N;   (* 493 *)
  Call lineRight [aa; bb; cc; dd] [f4; 0x50a28be6; 9; 13]%N;   (* 494 *)
  Call lineRight [dd; aa; bb; cc] [f4; 0x50a28be6; 2; 15]%N;   (* 495 *)
  Call lineLeft [c; d; a; b] [f1; 0; 6; 7]%N;   (* 496 *)
  Call lineLeft [b; c; d; a] [f1; 0; 7; 9]%N;   (* 497 *)
  Call lineRight [cc; dd; aa; bb] [f4; 0x50a28be6; 11; 15]%N;   (* 498 *)
  Call lineRight [bb; cc; dd; aa] [f4; 0x50a28be6; 4; 5]%N;   (* 499 *)
  Call lineLeft [a; b; c; d] [f1; 0; 8; 11]%N;   (* 500 *)
  Call lineLeft [d; a; b; c] [f1; 0; 9; 13]%N;   (* 501 *)
  Call lineRight [aa; bb; cc; dd] [f4; 0x50a28be6; 13; 7]%N;   (* 502 *)
  Call lineRight [dd; aa; bb; cc] [f4; 0x50a28be6; 6; 7]%N;   (* 503 *)
  Call lineLeft [c; d; a; b] [f1; 0; 10; 14]%N;   (* 504 *)
  Call lineLeft [b; c; d; a] [f1; 0; 11; 15]%N;   (* 505 *)
  Call lineRight [cc; dd; aa; bb] [f4; 0x50a28be6; 15; 8]%N;   (* 506 *)
  Call lineRight [bb; cc; dd; aa] [f4; 0x50a28be6; 8; 11]%N;   (* 507 *)
  Call lineLeft [a; b; c; d] [f1; 0; 12; 6]%N;   (* 508 *)
  Call lineLeft [d; a; b; c] [f1; 0; 13; 7]%N;   (* 509 *)
  Call lineRight [aa; bb; cc; dd] [f4; 0x50a28be6; 1; 14]%N;   (* 510 *)
  Call lineRight [dd; aa; bb; cc] [f4; 0x50a28be6; 10; 14]%N;   (* 511 *)
  Call lineLeft [c; d; a; b] [f1; 0; 14; 9]%N;   (* 512 *)
  Call lineLeft [b; c; d; a] [f1; 0; 15; 8]%N;   (* 513 *)
  Call lineRight [cc; dd; aa; bb] [f4; 0x50a28be6; 3; 12]%N;   (* 514 *)
  Call lineRight [bb; cc; dd; aa] [f4; 0x50a28be6; 12; 6]%N;   (* 515 *)
  Call lineLeft [a; b; c; d] [f2; 0x5a827999; 7; 7]%N;   (* 516 *)
  Call lineLeft [d; a; b; c] [f2; 0x5a827999; 4; 6]%N;   (* 517 *)
  Call lineRight [aa; bb; cc; dd] [f3; 0x5c4dd124; 6; 9]%N;   (* 518 *)
  Call lineRight [dd; aa; bb; cc] [f3; 0x5c4dd124; 11; 13]%N;   (* 519 *)
  Call lineLeft [c; d; a; b] [f2; 0x5a827999; 13; 8]%N;   (* 520 *)
  Call lineLeft [b; c; d; a] [f2; 0x5a827999; 1; 13]%N;   (* 521 *)
  Call lineRight [cc; dd; aa; bb] [f3; 0x5c4dd124; 3; 15]%N;   (* 522 *)
  Call lineRight [bb; cc; dd; aa] [f3; 0x5c4dd124; 7; 7]%N;   (* 523 *)
  Call lineLeft [a; b; c; d] [f2; 0x5a827999; 10; 11]%N;   (* 524 *)
  Call lineLeft [d; a; b; c] [f2; 0x5a827999; 6; 9]%N;   (* 525 *)
  Call lineRight [aa; bb; cc; dd] [f3; 0x5c4dd124; 0; 12]%N;   (* 526 *)
  Call lineRight [dd; aa; bb; cc] [f3; 0x5c4dd124; 13; 8]%N;   (* 527 *)
  Call lineLeft [c; d; a; b] [f2; 0x5a827999; 15; 7]%N;   (* 528 *)
  Call lineLeft [b; c; d; a] [f2; 0x5a827999; 3; 15]%N;   (* 529 *)
  Call lineRight [cc; dd; aa; bb] [f3; 0x5c4dd124; 5; 9]%N;   (* 530 *)
  Call lineRight [bb; cc; dd; aa] [f3; 0x5c4dd124; 10; 11]%N;   (* 531 *)
  Call lineLeft [a; b; c; d] [f2; 0x5a827999; 12; 7]%N;   (* 532 *)
  Call lineLeft [d; a; b; c] [f2; 0x5a827999; 0; 12]%N;   (* 533 *)
  Call lineRight [aa; bb; cc; dd] [f3; 0x5c4dd124; 14; 7]%N;   (* 534 *)
  Call lineRight [dd; aa; bb; cc] [f3; 0x5c4dd124; 15; 7]%N;   (* 535 *)
  Call lineLeft [c; d; a; b] [f2; 0x5a827999; 9; 15]%N;   (* 536 *)
  Call lineLeft [b; c; d; a] [f2; 0x5a827999; 5; 9]%N;   (* 537 *)
  Call lineRight [cc; dd; aa; bb] [f3; 0x5c4dd124; 8; 12]%N;   (* 538 *)
  Call lineRight [bb; cc; dd; aa] [f3; 0x5c4dd124; 12; 7]%N;   (* 539 *)
  Call lineLeft [a; b; c; d] [f2; 0x5a827999; 2; 11]%N;   (* 540 *)
  Call lineLeft [d; a; b; c] [f2; 0x5a827999; 14; 7]%N;   (* 541 *)
  Call lineRight [aa; bb; cc; dd] [f3; 0x5c4dd124; 4; 6]%N;   (* 542 *)
  Call lineRight [dd; aa; bb; cc] [f3; 0x5c4dd124; 9; 15]%N;   (* 543 *)
  Call lineLeft [c; d; a; b] [f2; 0x5a827999; 11; 13]%N;   (* 544 *)
  Call lineLeft [b; c; d; a] [f2; 0x5a827999; 8; 12]%N;   (* 545 *)
  Call lineRight [cc; dd; aa; bb] [f3; 0x5c4dd124; 1; 13]%N;   (* 546 *)
  Call lineRight [bb; cc; dd; aa] [f3; 0x5c4dd124; 2; 11]%N;   (* 547 *)
  Call lineLeft [a; b; c; d] [f3; 0x6ed9eba1; 3; 11]%N;   (* 548 *)
  Call lineLeft [d; a; b; c] [f3; 0x6ed9eba1; 10; 13]%N;   (* 549 *)
  Call lineRight [aa; bb; cc; dd] [f2; 0x6d703ef3; 15; 9]%N;   (* 550 *)
  Call lineRight [dd; aa; bb; cc] [f2; 0x6d703ef3; 5; 7]%N;   (* 551 *)
  Call lineLeft [c; d; a; b] [f3; 0x6ed9eba1; 14; 6]%N;   (* 552 *)
  Call lineLeft [b; c; d; a] [f3; 0x6ed9eba1; 4; 7]%N;   (* 553 *)
  Call lineRight [cc; dd; aa; bb] [f2; 0x6d703ef3; 1; 15]%N;   (* 554 *)
  Call lineRight [bb; cc; dd; aa] [f2; 0x6d703ef3; 3; 11]%N;   (* 555 *)
  Call lineLeft [a; b; c; d] [f3; 0x6ed9eba1; 9; 14]%N;   (* 556 *)
  Call lineLeft [d; a; b; c] [f3; 0x6ed9eba1; 15; 9]%N;   (* 557 *)
  Call lineRight [aa; bb; cc; dd] [f2; 0x6d703ef3; 7; 8]%N;   (* 558 *)
  Call lineRight [dd; aa; bb; cc] [f2; 0x6d703ef3; 14; 6]%N;   (* 559 *)
  Call lineLeft [c; d; a; b] [f3; 0x6ed9eba1; 8; 13]%N;   (* 560 *)
  Call lineLeft [b; c; d; a] [f3; 0x6ed9eba1; 1; 15]%N;   (* 561 *)
  Call lineRight [cc; dd; aa; bb] [f2; 0x6d703ef3; 6; 6]%N;   (* 562 *)
  Call lineRight [bb; cc; dd; aa] [f2; 0x6d703ef3; 9; 14]%N;   (* 563 *)
  Call lineLeft [a; b; c; d] [f3; 0x6ed9eba1; 2; 14]%N;   (* 564 *)
  Call lineLeft [d; a; b; c] [f3; 0x6ed9eba1; 7; 8]%N;   (* 565 *)
  Call lineRight [aa; bb; cc; dd] [f2; 0x6d703ef3; 11; 12]%N;   (* 566 *)
  Call lineRight [dd; aa; bb; cc] [f2; 0x6d703ef3; 8; 13]%N;   (* 567 *)
  Call lineLeft [c; d; a; b] [f3; 0x6ed9eba1; 0; 13]%N;   (* 568 *)
  Call lineLeft [b; c; d; a] [f3; 0x6ed9eba1; 6; 6]%N;   (* 569 *)
  Call lineRight [cc; dd; aa; bb] [f2; 0x6d703ef3; 12; 5]%N;   (* 570 *)
  Call lineRight [bb; cc; dd; aa] [f2; 0x6d703ef3; 2; 14]%N;   (* 571 *)
  Call lineLeft [a; b; c; d] [f3; 0x6ed9eba1; 13; 5]%N;   (* 572 *)
  Call lineLeft [d; a; b; c] [f3; 0x6ed9eba1; 11; 12]%N;   (* 573 *)
  Call lineRight [aa; bb; cc; dd] [f2; 0x6d703ef3; 10; 13]%N;   (* 574 *)
  Call lineRight [dd; aa; bb; cc] [f2; 0x6d703ef3; 0; 13]%N;   (* 575 *)
  Call lineLeft [c; d; a; b] [f3; 0x6ed9eba1; 5; 7]%N;   (* 576 *)
  Call lineLeft [b; c; d; a] [f3; 0x6ed9eba1; 12; 5]%N;   (* 577 *)
  Call lineRight [cc; dd; aa; bb] [f2; 0x6d703ef3; 4; 7]%N;   (* 578 *)
  Call lineRight [bb; cc; dd; aa] [f2; 0x6d703ef3; 13; 5]%N;   (* 579 *)
  Call lineLeft [a; b; c; d] [f4; 0x8f1bbcdc; 1; 11]%N;   (* 580 *)
  Call lineLeft [d; a; b; c] [f4; 0x8f1bbcdc; 9; 12]%N;   (* 581 *)
  Call lineRight [aa; bb; cc; dd] [f1; 0; 8; 15]%N;   (* 582 *)
  Call lineRight [dd; aa; bb; cc] [f1; 0; 6; 5]%N;   (* 583 *)
  Call lineLeft [c; d; a; b] [f4; 0x8f1bbcdc; 11; 14]%N;   (* 584 *)
  Call lineLeft [b; c; d; a] [f4; 0x8f1bbcdc; 10; 15]%N;   (* 585 *)
  Call lineRight [cc; dd; aa; bb] [f1; 0; 4; 8]%N;   (* 586 *)
  Call lineRight [bb; cc; dd; aa] [f1; 0; 1; 11]%N;   (* 587 *)
  Call lineLeft [a; b; c; d] [f4; 0x8f1bbcdc; 0; 14]%N;   (* 588 *)
  Call lineLeft [d; a; b; c] [f4; 0x8f1bbcdc; 8; 15]%N;   (* 589 *)
  Call lineRight [aa; bb; cc; dd] [f1; 0; 3; 14]%N;   (* 590 *)
  Call lineRight [dd; aa; bb; cc] [f1; 0; 11; 14]%N;   (* 591 *)
  Call lineLeft [c; d; a; b] [f4; 0x8f1bbcdc; 12; 9]%N;   (* 592 *)
  Call lineLeft [b; c; d; a] [f4; 0x8f1bbcdc; 4; 8]%N;   (* 593 *)
  Call lineRight [cc; dd; aa; bb] [f1; 0; 15; 6]%N;   (* 594 *)
  Call lineRight [bb; cc; dd; aa] [f1; 0; 0; 14]%N;   (* 595 *)
  Call lineLeft [a; b; c; d] [f4; 0x8f1bbcdc; 13; 9]%N;   (* 596 *)
  Call lineLeft [d; a; b; c] [f4; 0x8f1bbcdc; 3; 14]%N;   (* 597 *)
  Call lineRight [aa; bb; cc; dd] [f1; 0; 5; 6]%N;   (* 598 *)
  Call lineRight [dd; aa; bb; cc] [f1; 0; 12; 9]%N;   (* 599 *)
  Call lineLeft [c; d; a; b] [f4; 0x8f1bbcdc; 7; 5]%N;   (* 600 *)
  Call lineLeft [b; c; d; a] [f4; 0x8f1bbcdc; 15; 6]%N;   (* 601 *)
  Call lineRight [cc; dd; aa; bb] [f1; 0; 2; 12]%N;   (* 602 *)
  Call lineRight [bb; cc; dd; aa] [f1; 0; 13; 9]%N;   (* 603 *)
  Call lineLeft [a; b; c; d] [f4; 0x8f1bbcdc; 14; 8]%N;   (* 604 *)
  Call lineLeft [d; a; b; c] [f4; 0x8f1bbcdc; 5; 6]%N;   (* 605 *)
  Call lineRight [aa; bb; cc; dd] [f1; 0; 9; 12]%N;   (* 606 *)
  Call lineRight [dd; aa; bb; cc] [f1; 0; 7; 5]%N;   (* 607 *)
  Call lineLeft [c; d; a; b] [f4; 0x8f1bbcdc; 6; 5]%N;   (* 608 *)
  Call lineLeft [b; c; d; a] [f4; 0x8f1bbcdc; 2; 12]%N;   (* 609 *)
  Call lineRight [cc; dd; aa; bb] [f1; 0; 10; 15]%N;   (* 610 *)
  Call lineRight [bb; cc; dd; aa] [f1; 0; 14; 8]%N   (* 611 *)
].
