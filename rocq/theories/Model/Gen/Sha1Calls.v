(** Generated by tools/gen_rounds.py from sha1.h: the calls of sha1Round1, sha1Round1a, sha1Round2, sha1Round2a, sha1Round3, sha1Round4
    in lines 462-612, in source order (last number of each line: source line). *)
From Coq Require Import List NArith.
From Verif.Model Require Import Call.
Import ListNotations.

Inductive fn := sha1Round1 | sha1Round1a | sha1Round2 | sha1Round2a | sha1Round3 | sha1Round4.
Local Notation a := 0%nat (only parsing).
Local Notation b := 1%nat (only parsing).
Local Notation c := 2%nat (only parsing).
Local Notation d := 3%nat (only parsing).
Local Notation e := 4%nat (only parsing).

Definition calls : list (call fn) := [
  Call sha1Round1 [a; b; c; d; e] [0]%N;   (* 469 *)
  Call sha1Round1 [e; a; b; c; d] [1]%N;   (* 470 *)
  Call sha1Round1 [d; e; a; b; c] [2]%N;   (* 471 *)
  Call sha1Round1 [c; d; e; a; b] [3]%N;   (* 472 *)
  Call sha1Round1 [b; c; d; e; a] [4]%N;   (* 473 *)
  Call sha1Round1 [a; b; c; d; e] [5]%N;   (* 474 *)
  Call sha1Round1 [e; a; b; c; d] [6]%N;   (* 475 *)
  Call sha1Round1 [d; e; a; b; c] [7]%N;   (* 476 *)
  Call sha1Round1 [c; d; e; a; b] [8]%N;   (* 477 *)
  Call sha1Round1 [b; c; d; e; a] [9]%N;   (* 478 *)
  Call sha1Round1 [a; b; c; d; e] [10]%N;   (* 479 *)
  Call sha1Round1 [e; a; b; c; d] [11]%N;   (* 480 *)
  Call sha1Round1 [d; e; a; b; c] [12]%N;   (* 481 *)
  Call sha1Round1 [c; d; e; a; b] [13]%N;   (* 482 *)
  Call sha1Round1 [b; c; d; e; a] [14]%N;   (* 483 *)
  Call sha1Round1 [a; b; c; d; e] [15]%N;   (* 484 *)
  Call sha1Round1a [e; a; b; c; d] [16]%N;   (* 496 *)
  Call sha1Round1a [d; e; a; b; c] [17]%N;   (* 497 *)
  Call sha1Round1a [c; d; e; a; b] [18]%N;   (* 498 *)
  Call sha1Round1a [b; c; d; e; a] [19]%N;   (* 499 *)
  Call sha1Round2 [a; b; c; d; e] [20]%N;   (* 511 *)
  Call sha1Round2 [e; a; b; c; d] [21]%N;   (* 512 *)
  Call sha1Round2 [d; e; a; b; c] [22]%N;   (* 513 *)
  Call sha1Round2 [c; d; e; a; b] [23]%N;   (* 514 *)
  Call sha1Round2 [b; c; d; e; a] [24]%N;   (* 515 *)
  Call sha1Round2 [a; b; c; d; e] [25]%N;   (* 516 *)
  Call sha1Round2 [e; a; b; c; d] [26]%N;   (* 517 *)
  Call sha1Round2 [d; e; a; b; c] [27]%N;   (* 518 *)
  Call sha1Round2 [c; d; e; a; b] [28]%N;   (* 519 *)
  Call sha1Round2 [b; c; d; e; a] [29]%N;   (* 520 *)
  Call sha1Round2 [a; b; c; d; e] [30]%N;   (* 521 *)
  Call sha1Round2 [e; a; b; c; d] [31]%N;   (* 522 *)
  Call sha1Round2a [d; e; a; b; c] [32]%N;   (* 534 *)
  Call sha1Round2a [c; d; e; a; b] [33]%N;   (* 535 *)
  Call sha1Round2a [b; c; d; e; a] [34]%N;   (* 536 *)
  Call sha1Round2a [a; b; c; d; e] [35]%N;   (* 537 *)
  Call sha1Round2a [e; a; b; c; d] [36]%N;   (* 538 *)
  Call sha1Round2a [d; e; a; b; c] [37]%N;   (* 539 *)
  Call sha1Round2a [c; d; e; a; b] [38]%N;   (* 540 *)
  Call sha1Round2a [b; c; d; e; a] [39]%N;   (* 541 *)
  Call sha1Round3 [a; b; c; d; e] [40]%N;   (* 553 *)
  Call sha1Round3 [e; a; b; c; d] [41]%N;   (* 554 *)
  Call sha1Round3 [d; e; a; b; c] [42]%N;   (* 555 *)
  Call sha1Round3 [c; d; e; a; b] [43]%N;   (* 556 *)
  Call sha1Round3 [b; c; d; e; a] [44]%N;   (* 557 *)
  Call sha1Round3 [a; b; c; d; e] [45]%N;   (* 558 *)
  Call sha1Round3 [e; a; b; c; d] [46]%N;   (* 559 *)
  Call sha1Round3 [d; e; a; b; c] [47]%N;   (* 560 *)
  Call sha1Round3 [c; d; e; a; b] [48]%N;   (* 561 *)
  Call sha1Round3 [b; c; d; e; a] [49]%N;   (* 562 *)
  Call sha1Round3 [a; b; c; d; e] [50]%N;   (* 563 *)
  Call sha1Round3 [e; a; b; c; d] [51]%N;   (* 564 *)
  Call sha1Round3 [d; e; a; b; c] [52]%N;   (* 565 *)
  Call sha1Round3 [c; d; e; a; b] [53]%N;   (* 566 *)
  Call sha1Round3 [b; c; d; e; a] [54]%N;   (* 567 *)
  Call sha1Round3 [a; b; c; d; e] [55]%N;   (* 568 *)
  Call sha1Round3 [e; a; b; c; d] [56]%N;   (* 569 *)
  Call sha1Round3 [d; e; a; b; c] [57]%N;   (* 570 *)
  Call sha1Round3 [c; d; e; a; b] [58]%N;   (* 571 *)
  Call sha1Round3 [b; c; d; e; a] [59]%N;   (* 572 *)
  Call sha1Round4 [a; b; c; d; e] [60]%N;   (* 584 *)
  Call sha1Round4 [e; a; b; c; d] [61]%N;   (* 585 *)
  Call sha1Round4 [d; e; a; b; c] [62]%N;   (* 586 *)
  Call sha1Round4 [c; d; e; a; b] [63]%N;   (* 587 *)
  Call sha1Round4 [b; c; d; e; a] [64]%N;   (* 588 *)
  Call sha1Round4 [a; b; c; d; e] [65]%N;   (* 589 *)
  Call sha1Round4 [e; a; b; c; d] [66]%N;   (* 590 *)
  Call sha1Round4 [d; e; a; b; c] [67]%N;   (* 591 *)
  Call sha1Round4 [c; d; e; a; b] [68]%N;   (* 592 *)
  Call sha1Round4 [b; c; d; e; a] [69]%N;   (* 593 *)
  Call sha1Round4 [a; b; c; d; e] [70]%N;   (* 594 *)
  Call sha1Round4 [e; a; b; c; d] [71]%N;   (* 595 *)
  Call sha1Round4 [d; e; a; b; c] [72]%N;   (* 596 *)
  Call sha1Round4 [c; d; e; a; b] [73]%N;   (* 597 *)
  Call sha1Round4 [b; c; d; e; a] [74]%N;   (* 598 *)
  Call sha1Round4 [a; b; c; d; e] [75]%N;   (* 599 *)
  Call sha1Round4 [e; a; b; c; d] [76]%N;   (* 600 *)
  Call sha1Round4 [d; e; a; b; c] [77]%N;   (* 601 *)
  Call sha1Round4 [c; d; e; a; b] [78]%N;   (* 602 *)
  Call sha1Round4 [b; c; d; e; a] [79]%N   (* 603 *)
].
