(** Generated by tools/gen_rounds.py from unfinished/has_v_320.cpp: the calls of extendTable, lineLeft, lineRight, swapChainVars
    in lines 551-791, in source order (last number of each line: source line). *)
From Coq Require Import List NArith.
From Verif.Model Require Import Call.
Import ListNotations.

Inductive fn := extendTable | lineLeft | lineRight | swapChainVars.
Local Notation a := 0%nat (only parsing).
Local Notation b := 1%nat (only parsing).
Local Notation c := 2%nat (only parsing).
Local Notation d := 3%nat (only parsing).
Local Notation e := 4%nat (only parsing).
Local Notation f := 5%nat (only parsing).
Local Notation g := 6%nat (only parsing).
Local Notation h := 7%nat (only parsing).
Local Notation i := 8%nat (only parsing).
Local Notation j := 9%nat (only parsing).
Local Notation f0 := 0%N (only parsing).
Local Notation f1 := 1%N (only parsing).
Local Notation f2 := 2%N (only parsing).
Local Notation f3 := 3%N (only parsing).
Local Notation f4 := 4%N (only parsing).
Local Notation xTable := 5%N (only parsing).
Local Notation yTable := 6%N (only parsing).

Definition calls : list (call fn) := [
  Call extendTable [] [xTable; 0]%N;   (* 552 *)
  Call lineLeft [a; b; c; d; e] [f0; 0; 0]%N;   (* 553 *)
  Call lineLeft [e; a; b; c; d] [f0; 0; 1]%N;   (* 554 *)
  Call lineLeft [d; e; a; b; c] [f0; 0; 2]%N;   (* 555 *)
  Call lineLeft [c; d; e; a; b] [f0; 0; 3]%N;   (* 556 *)
  Call lineLeft [b; c; d; e; a] [f0; 0; 4]%N;   (* 557 *)
  Call lineLeft [a; b; c; d; e] [f0; 0; 5]%N;   (* 558 *)
  Call lineLeft [e; a; b; c; d] [f0; 0; 6]%N;   (* 559 *)
  Call lineLeft [d; e; a; b; c] [f0; 0; 7]%N;   (* 560 *)
  Call lineLeft [c; d; e; a; b] [f0; 0; 8]%N;   (* 561 *)
  Call lineLeft [b; c; d; e; a] [f0; 0; 9]%N;   (* 562 *)
  Call lineLeft [a; b; c; d; e] [f0; 0; 10]%N;   (* 563 *)
  Call lineLeft [e; a; b; c; d] [f0; 0; 11]%N;   (* 564 *)
  Call lineLeft [d; e; a; b; c] [f0; 0; 12]%N;   (* 565 *)
  Call lineLeft [c; d; e; a; b] [f0; 0; 13]%N;   (* 566 *)
  Call lineLeft [b; c; d; e; a] [f0; 0; 14]%N;   (* 567 *)
  Call lineLeft [a; b; c; d; e] [f0; 0; 15]%N;   (* 568 *)
  Call lineLeft [e; a; b; c; d] [f0; 0; 16]%N;   (* 569 *)
  Call lineLeft [d; e; a; b; c] [f0; 0; 17]%N;   (* 570 *)
  Call lineLeft [c; d; e; a; b] [f0; 0; 18]%N;   (* 571 *)
  Call lineLeft [b; c; d; e; a] [f0; 0; 19]%N;   (* 572 *)
  Call extendTable [] [yTable; 0]%N;   (* 574 *)
  Call lineRight [f; g; h; i; j] [f4; 0xa953fd4e; 0]%N;   (* 575 *)
  Call lineRight [j; f; g; h; i] [f4; 0xa953fd4e; 1]%N;   (* 576 *)
  Call lineRight [i; j; f; g; h] [f4; 0xa953fd4e; 2]%N;   (* 577 *)
  Call lineRight [h; i; j; f; g] [f4; 0xa953fd4e; 3]%N;   (* 578 *)
  Call lineRight [g; h; i; j; f] [f4; 0xa953fd4e; 4]%N;   (* 579 *)
  Call lineRight [f; g; h; i; j] [f4; 0xa953fd4e; 5]%N;   (* 580 *)
  Call lineRight [j; f; g; h; i] [f4; 0xa953fd4e; 6]%N;   (* 581 *)
  Call lineRight [i; j; f; g; h] [f4; 0xa953fd4e; 7]%N;   (* 582 *)
  Call lineRight [h; i; j; f; g] [f4; 0xa953fd4e; 8]%N;   (* 583 *)
  Call lineRight [g; h; i; j; f] [f4; 0xa953fd4e; 9]%N;   (* 584 *)
  Call lineRight [f; g; h; i; j] [f4; 0xa953fd4e; 10]%N;   (* 585 *)
  Call lineRight [j; f; g; h; i] [f4; 0xa953fd4e; 11]%N;   (* 586 *)
  Call lineRight [i; j; f; g; h] [f4; 0xa953fd4e; 12]%N;   (* 587 *)
  Call lineRight [h; i; j; f; g] [f4; 0xa953fd4e; 13]%N;   (* 588 *)
  Call lineRight [g; h; i; j; f] [f4; 0xa953fd4e; 14]%N;   (* 589 *)
  Call lineRight [f; g; h; i; j] [f4; 0xa953fd4e; 15]%N;   (* 590 *)
  Call lineRight [j; f; g; h; i] [f4; 0xa953fd4e; 16]%N;   (* 591 *)
  Call lineRight [i; j; f; g; h] [f4; 0xa953fd4e; 17]%N;   (* 592 *)
  Call lineRight [h; i; j; f; g] [f4; 0xa953fd4e; 18]%N;   (* 593 *)
  Call lineRight [g; h; i; j; f] [f4; 0xa953fd4e; 19]%N;   (* 594 *)
  Call swapChainVars [] []%N;   (* 596 *)
  Call extendTable [] [xTable; 1]%N;   (* 599 *)
  Call lineLeft [a; b; c; d; e] [f1; 0x5a827999; 20]%N;   (* 600 *)
  Call lineLeft [e; a; b; c; d] [f1; 0x5a827999; 21]%N;   (* 601 *)
  Call lineLeft [d; e; a; b; c] [f1; 0x5a827999; 22]%N;   (* 602 *)
  Call lineLeft [c; d; e; a; b] [f1; 0x5a827999; 23]%N;   (* 603 *)
  Call lineLeft [b; c; d; e; a] [f1; 0x5a827999; 24]%N;   (* 604 *)
  Call lineLeft [a; b; c; d; e] [f1; 0x5a827999; 25]%N;   (* 605 *)
  Call lineLeft [e; a; b; c; d] [f1; 0x5a827999; 26]%N;   (* 606 *)
  Call lineLeft [d; e; a; b; c] [f1; 0x5a827999; 27]%N;   (* 607 *)
  Call lineLeft [c; d; e; a; b] [f1; 0x5a827999; 28]%N;   (* 608 *)
  Call lineLeft [b; c; d; e; a] [f1; 0x5a827999; 29]%N;   (* 609 *)
  Call lineLeft [a; b; c; d; e] [f1; 0x5a827999; 30]%N;   (* 610 *)
  Call lineLeft [e; a; b; c; d] [f1; 0x5a827999; 31]%N;   (* 611 *)
  Call lineLeft [d; e; a; b; c] [f1; 0x5a827999; 32]%N;   (* 612 *)
  Call lineLeft [c; d; e; a; b] [f1; 0x5a827999; 33]%N;   (* 613 *)
  Call lineLeft [b; c; d; e; a] [f1; 0x5a827999; 34]%N;   (* 614 *)
  Call lineLeft [a; b; c; d; e] [f1; 0x5a827999; 35]%N;   (* 615 *)
  Call lineLeft [e; a; b; c; d] [f1; 0x5a827999; 36]%N;   (* 616 *)
  Call lineLeft [d; e; a; b; c] [f1; 0x5a827999; 37]%N;   (* 617 *)
  Call lineLeft [c; d; e; a; b] [f1; 0x5a827999; 38]%N;   (* 618 *)
  Call lineLeft [b; c; d; e; a] [f1; 0x5a827999; 39]%N;   (* 619 *)
  Call extendTable [] [yTable; 1]%N;   (* 622 *)
  Call lineRight [f; g; h; i; j] [f3; 0x8f1bbcdc; 20]%N;   (* 623 *)
  Call lineRight [j; f; g; h; i] [f3; 0x8f1bbcdc; 21]%N;   (* 624 *)
  Call lineRight [i; j; f; g; h] [f3; 0x8f1bbcdc; 22]%N;   (* 625 *)
  Call lineRight [h; i; j; f; g] [f3; 0x8f1bbcdc; 23]%N;   (* 626 *)
  Call lineRight [g; h; i; j; f] [f3; 0x8f1bbcdc; 24]%N;   (* 627 *)
  Call lineRight [f; g; h; i; j] [f3; 0x8f1bbcdc; 25]%N;   (* 628 *)
  Call lineRight [j; f; g; h; i] [f3; 0x8f1bbcdc; 26]%N;   (* 629 *)
  Call lineRight [i; j; f; g; h] [f3; 0x8f1bbcdc; 27]%N;   (* 630 *)
  Call lineRight [h; i; j; f; g] [f3; 0x8f1bbcdc; 28]%N;   (* 631 *)
  Call lineRight [g; h; i; j; f] [f3; 0x8f1bbcdc; 29]%N;   (* 632 *)
  Call lineRight [f; g; h; i; j] [f3; 0x8f1bbcdc; 30]%N;   (* 633 *)
  Call lineRight [j; f; g; h; i] [f3; 0x8f1bbcdc; 31]%N;   (* 634 *)
  Call lineRight [i; j; f; g; h] [f3; 0x8f1bbcdc; 32]%N;   (* 635 *)
  Call lineRight [h; i; j; f; g] [f3; 0x8f1bbcdc; 33]%N;   (* 636 *)
  Call lineRight [g; h; i; j; f] [f3; 0x8f1bbcdc; 34]%N;   (* 637 *)
  Call lineRight [f; g; h; i; j] [f3; 0x8f1bbcdc; 35]%N;   (* 638 *)
  Call lineRight [j; f; g; h; i] [f3; 0x8f1bbcdc; 36]%N;   (* 639 *)
  Call lineRight [i; j; f; g; h] [f3; 0x8f1bbcdc; 37]%N;   (* 640 *)
  Call lineRight [h; i; j; f; g] [f3; 0x8f1bbcdc; 38]%N;   (* 641 *)
  Call lineRight [g; h; i; j; f] [f3; 0x8f1bbcdc; 39]%N;   (* 642 *)
  Call swapChainVars [] []%N;   (* 644 *)
  Call extendTable [] [xTable; 2]%N;   (* 649 *)
  Call lineLeft [a; b; c; d; e] [f2; 0x6ed9eba1; 40]%N;   (* 650 *)
  Call lineLeft [e; a; b; c; d] [f2; 0x6ed9eba1; 41]%N;   (* 651 *)
  Call lineLeft [d; e; a; b; c] [f2; 0x6ed9eba1; 42]%N;   (* 652 *)
  Call lineLeft [c; d; e; a; b] [f2; 0x6ed9eba1; 43]%N;   (* 653 *)
  Call lineLeft [b; c; d; e; a] [f2; 0x6ed9eba1; 44]%N;   (* 654 *)
  Call lineLeft [a; b; c; d; e] [f2; 0x6ed9eba1; 45]%N;   (* 655 *)
  Call lineLeft [e; a; b; c; d] [f2; 0x6ed9eba1; 46]%N;   (* 656 *)
  Call lineLeft [d; e; a; b; c] [f2; 0x6ed9eba1; 47]%N;   (* 657 *)
  Call lineLeft [c; d; e; a; b] [f2; 0x6ed9eba1; 48]%N;   (* 658 *)
  Call lineLeft [b; c; d; e; a] [f2; 0x6ed9eba1; 49]%N;   (* 659 *)
  Call lineLeft [a; b; c; d; e] [f2; 0x6ed9eba1; 50]%N;   (* 660 *)
  Call lineLeft [e; a; b; c; d] [f2; 0x6ed9eba1; 51]%N;   (* 661 *)
  Call lineLeft [d; e; a; b; c] [f2; 0x6ed9eba1; 52]%N;   (* 662 *)
  Call lineLeft [c; d; e; a; b] [f2; 0x6ed9eba1; 53]%N;   (* 663 *)
  Call lineLeft [b; c; d; e; a] [f2; 0x6ed9eba1; 54]%N;   (* 664 *)
  Call lineLeft [a; b; c; d; e] [f2; 0x6ed9eba1; 55]%N;   (* 665 *)
  Call lineLeft [e; a; b; c; d] [f2; 0x6ed9eba1; 56]%N;   (* 666 *)
  Call lineLeft [d; e; a; b; c] [f2; 0x6ed9eba1; 57]%N;   (* 667 *)
  Call lineLeft [c; d; e; a; b] [f2; 0x6ed9eba1; 58]%N;   (* 668 *)
  Call lineLeft [b; c; d; e; a] [f2; 0x6ed9eba1; 59]%N;   (* 669 *)
  Call extendTable [] [yTable; 2]%N;   (* 672 *)
  Call lineRight [f; g; h; i; j] [f2; 0; 40]%N;   (* 673 *)
  Call lineRight [j; f; g; h; i] [f2; 0; 41]%N;   (* 674 *)
  Call lineRight [i; j; f; g; h] [f2; 0; 42]%N;   (* 675 *)
  Call lineRight [h; i; j; f; g] [f2; 0; 43]%N;   (* 676 *)
  Call lineRight [g; h; i; j; f] [f2; 0; 44]%N;   (* 677 *)
  Call lineRight [f; g; h; i; j] [f2; 0; 45]%N;   (* 678 *)
  Call lineRight [j; f; g; h; i] [f2; 0; 46]%N;   (* 679 *)
  Call lineRight [i; j; f; g; h] [f2; 0; 47]%N;   (* 680 *)
  Call lineRight [h; i; j; f; g] [f2; 0; 48]%N;   (* 681 *)
  Call lineRight [g; h; i; j; f] [f2; 0; 49]%N;   (* 682 *)
  Call lineRight [f; g; h; i; j] [f2; 0; 50]%N;   (* 683 *)
  Call lineRight [j; f; g; h; i] [f2; 0; 51]%N;   (* 684 *)
  Call lineRight [i; j; f; g; h] [f2; 0; 52]%N;   (* 685 *)
  Call lineRight [h; i; j; f; g] [f2; 0; 53]%N;   (* 686 *)
  Call lineRight [g; h; i; j; f] [f2; 0; 54]%N;   (* 687 *)
  Call lineRight [f; g; h; i; j] [f2; 0; 55]%N;   (* 688 *)
  Call lineRight [j; f; g; h; i] [f2; 0; 56]%N;   (* 689 *)
  Call lineRight [i; j; f; g; h] [f2; 0; 57]%N;   (* 690 *)
  Call lineRight [h; i; j; f; g] [f2; 0; 58]%N;   (* 691 *)
  Call lineRight [g; h; i; j; f] [f2; 0; 59]%N;   (* 692 *)
  Call swapChainVars [] []%N;   (* 694 *)
  Call extendTable [] [xTable; 3]%N;   (* 697 *)
  Call lineLeft [a; b; c; d; e] [f3; 0x8f1bbcdc; 60]%N;   (* 698 *)
  Call lineLeft [e; a; b; c; d] [f3; 0x8f1bbcdc; 61]%N;   (* 699 *)
  Call lineLeft [d; e; a; b; c] [f3; 0x8f1bbcdc; 62]%N;   (* 700 *)
  Call lineLeft [c; d; e; a; b] [f3; 0x8f1bbcdc; 63]%N;   (* 701 *)
  Call lineLeft [b; c; d; e; a] [f3; 0x8f1bbcdc; 64]%N;   (* 702 *)
  Call lineLeft [a; b; c; d; e] [f3; 0x8f1bbcdc; 65]%N;   (* 703 *)
  Call lineLeft [e; a; b; c; d] [f3; 0x8f1bbcdc; 66]%N;   (* 704 *)
  Call lineLeft [d; e; a; b; c] [f3; 0x8f1bbcdc; 67]%N;   (* 705 *)
  Call lineLeft [c; d; e; a; b] [f3; 0x8f1bbcdc; 68]%N;   (* 706 *)
  Call lineLeft [b; c; d; e; a] [f3; 0x8f1bbcdc; 69]%N;   (* 707 *)
  Call lineLeft [a; b; c; d; e] [f3; 0x8f1bbcdc; 70]%N;   (* 708 *)
  Call lineLeft [e; a; b; c; d] [f3; 0x8f1bbcdc; 71]%N;   (* 709 *)
  Call lineLeft [d; e; a; b; c] [f3; 0x8f1bbcdc; 72]%N;   (* 710 *)
  Call lineLeft [c; d; e; a; b] [f3; 0x8f1bbcdc; 73]%N;   (* 711 *)
  Call lineLeft [b; c; d; e; a] [f3; 0x8f1bbcdc; 74]%N;   (* 712 *)
  Call lineLeft [a; b; c; d; e] [f3; 0x8f1bbcdc; 75]%N;   (* 713 *)
  Call lineLeft [e; a; b; c; d] [f3; 0x8f1bbcdc; 76]%N;   (* 714 *)
  Call lineLeft [d; e; a; b; c] [f3; 0x8f1bbcdc; 77]%N;   (* 715 *)
  Call lineLeft [c; d; e; a; b] [f3; 0x8f1bbcdc; 78]%N;   (* 716 *)
  Call lineLeft [b; c; d; e; a] [f3; 0x8f1bbcdc; 79]%N;   (* 717 *)
  Call extendTable [] [yTable; 3]%N;   (* 721 *)
  Call lineRight [f; g; h; i; j] [f1; 0x5a827999; 60]%N;   (* 722 *)
  Call lineRight [j; f; g; h; i] [f1; 0x5a827999; 61]%N;   (* 723 *)
  Call lineRight [i; j; f; g; h] [f1; 0x5a827999; 62]%N;   (* 724 *)
  Call lineRight [h; i; j; f; g] [f1; 0x5a827999; 63]%N;   (* 725 *)
  Call lineRight [g; h; i; j; f] [f1; 0x5a827999; 64]%N;   (* 726 *)
  Call lineRight [f; g; h; i; j] [f1; 0x5a827999; 65]%N;   (* 727 *)
  Call lineRight [j; f; g; h; i] [f1; 0x5a827999; 66]%N;   (* 728 *)
  Call lineRight [i; j; f; g; h] [f1; 0x5a827999; 67]%N;   (* 729 *)
  Call lineRight [h; i; j; f; g] [f1; 0x5a827999; 68]%N;   (* 730 *)
  Call lineRight [g; h; i; j; f] [f1; 0x5a827999; 69]%N;   (* 731 *)
  Call lineRight [f; g; h; i; j] [f1; 0x5a827999; 70]%N;   (* 732 *)
  Call lineRight [j; f; g; h; i] [f1; 0x5a827999; 71]%N;   (* 733 *)
  Call lineRight [i; j; f; g; h] [f1; 0x5a827999; 72]%N;   (* 734 *)
  Call lineRight [h; i; j; f; g] [f1; 0x5a827999; 73]%N;   (* 735 *)
  Call lineRight [g; h; i; j; f] [f1; 0x5a827999; 74]%N;   (* 736 *)
  Call lineRight [f; g; h; i; j] [f1; 0x5a827999; 75]%N;   (* 737 *)
  Call lineRight [j; f; g; h; i] [f1; 0x5a827999; 76]%N;   (* 738 *)
  Call lineRight [i; j; f; g; h] [f1; 0x5a827999; 77]%N;   (* 739 *)
  Call lineRight [h; i; j; f; g] [f1; 0x5a827999; 78]%N;   (* 740 *)
  Call lineRight [g; h; i; j; f] [f1; 0x5a827999; 79]%N;   (* 741 *)
  Call swapChainVars [] []%N;   (* 743 *)
  Call extendTable [] [xTable; 4]%N;   (* 746 *)
  Call lineLeft [a; b; c; d; e] [f4; 0xa953fd4e; 80]%N;   (* 747 *)
  Call lineLeft [e; a; b; c; d] [f4; 0xa953fd4e; 81]%N;   (* 748 *)
  Call lineLeft [d; e; a; b; c] [f4; 0xa953fd4e; 82]%N;   (* 749 *)
  Call lineLeft [c; d; e; a; b] [f4; 0xa953fd4e; 83]%N;   (* 750 *)
  Call lineLeft [b; c; d; e; a] [f4; 0xa953fd4e; 84]%N;   (* 751 *)
  Call lineLeft [a; b; c; d; e] [f4; 0xa953fd4e; 85]%N;   (* 752 *)
  Call lineLeft [e; a; b; c; d] [f4; 0xa953fd4e; 86]%N;   (* 753 *)
  Call lineLeft [d; e; a; b; c] [f4; 0xa953fd4e; 87]%N;   (* 754 *)
  Call lineLeft [c; d; e; a; b] [f4; 0xa953fd4e; 88]%N;   (* 755 *)
  Call lineLeft [b; c; d; e; a] [f4; 0xa953fd4e; 89]%N;   (* 756 *)
  Call lineLeft [a; b; c; d; e] [f4; 0xa953fd4e; 90]%N;   (* 757 *)
  Call lineLeft [e; a; b; c; d] [f4; 0xa953fd4e; 91]%N;   (* 758 *)
  Call lineLeft [d; e; a; b; c] [f4; 0xa953fd4e; 92]%N;   (* 759 *)
  Call lineLeft [c; d; e; a; b] [f4; 0xa953fd4e; 93]%N;   (* 760 *)
  Call lineLeft [b; c; d; e; a] [f4; 0xa953fd4e; 94]%N;   (* 761 *)
  Call lineLeft [a; b; c; d; e] [f4; 0xa953fd4e; 95]%N;   (* 762 *)
  Call lineLeft [e; a; b; c; d] [f4; 0xa953fd4e; 96]%N;   (* 763 *)
  Call lineLeft [d; e; a; b; c] [f4; 0xa953fd4e; 97]%N;   (* 764 *)
  Call lineLeft [c; d; e; a; b] [f4; 0xa953fd4e; 98]%N;   (* 765 *)
  Call lineLeft [b; c; d; e; a] [f4; 0xa953fd4e; 99]%N;   (* 766 *)
  Call extendTable [] [yTable; 4]%N;   (* 769 *)
  Call lineRight [f; g; h; i; j] [f0; 0x6ed9eba1; 80]%N;   (* 770 *)
  Call lineRight [j; f; g; h; i] [f0; 0x6ed9eba1; 81]%N;   (* 771 *)
  Call lineRight [i; j; f; g; h] [f0; 0x6ed9eba1; 82]%N;   (* 772 *)
  Call lineRight [h; i; j; f; g] [f0; 0x6ed9eba1; 83]%N;   (* 773 *)
  Call lineRight [g; h; i; j; f] [f0; 0x6ed9eba1; 84]%N;   (* 774 *)
  Call lineRight [f; g; h; i; j] [f0; 0x6ed9eba1; 85]%N;   (* 775 *)
  Call lineRight [j; f; g; h; i] [f0; 0x6ed9eba1; 86]%N;   (* 776 *)
  Call lineRight [i; j; f; g; h] [f0; 0x6ed9eba1; 87]%N;   (* 777 *)
  Call lineRight [h; i; j; f; g] [f0; 0x6ed9eba1; 88]%N;   (* 778 *)
  Call lineRight [g; h; i; j; f] [f0; 0x6ed9eba1; 89]%N;   (* 779 *)
  Call lineRight [f; g; h; i; j] [f0; 0x6ed9eba1; 90]%N;   (* 780 *)
  Call lineRight [j; f; g; h; i] [f0; 0x6ed9eba1; 91]%N;   (* 781 *)
  Call lineRight [i; j; f; g; h] [f0; 0x6ed9eba1; 92]%N;   (* 782 *)
  Call lineRight [h; i; j; f; g] [f0; 0x6ed9eba1; 93]%N;   (* 783 *)
  Call lineRight [g; h; i; j; f] [f0; 0x6ed9eba1; 94]%N;   (* 784 *)
  Call lineRight [f; g; h; i; j] [f0; 0x6ed9eba1; 95]%N;   (* 785 *)
  Call lineRight [j; f; g; h; i] [f0; 0x6ed9eba1; 96]%N;   (* 786 *)
  Call lineRight [i; j; f; g; h] [f0; 0x6ed9eba1; 97]%N;   (* 787 *)
  Call lineRight [h; i; j; f; g] [f0; 0x6ed9eba1; 98]%N;   (* 788 *)
  Call lineRight [g; h; i; j; f] [f0; 0x6ed9eba1; 99]%N;   (* 789 *)
  Call swapChainVars [] []%N   (* 791 *)
].
