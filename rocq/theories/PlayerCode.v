(** Generated by tools/gen_player.py: player/main.s, one term per source line
    (given as a comment).  Left out: .include, .DEBUGINFO, .proc; the macros
    ticklabel and tickident (472-478) only build label names. *)
From Verif Require Import Base AsmModel.

(** main.s 480-522: [.macro op_tick_4 page] *)
Definition op_tick_4 (page : Z) : list stmt := [
  Lab (OpTick 4 page); (* 482 *)
  Ins iSTA (Abs (Num 0xC030)); (* 483 *)
  Ins iSTA (Abs (Num 0xC030)); (* 484 *)
  Ins iSTA (Zp (Num 0x8)); (* 486 *)
  Ins iSTA (Zp (Num 0x8)); (* 487 *)
  Lab (Tail page 59); (* 490 *)
  Ins iLDA (Abs (Num 0xC097)); (* 491 *)
  Lab (Tail page 55); (* 494 *)
  Ins iLDY (Abs (Num 0xC097)); (* 495 *)
  Lab (Tail page 51); (* 496 *)
  Ins iSTA (AbsY (Num (256 * page))); (* 497 *)
  Lab (Tail page 46); (* 498 *)
  Ins iLDY (Abs (Num 0xC097)); (* 499 *)
  Lab (Tail page 42); (* 500 *)
  Ins iSTA (AbsY (Num (256 * page))); (* 501 *)
  Lab (Tail page 37); (* 502 *)
  Ins iLDY (Abs (Num 0xC097)); (* 503 *)
  Lab (Tail page 33); (* 504 *)
  Ins iSTA (AbsY (Num (256 * page))); (* 505 *)
  Lab (Tail page 28); (* 506 *)
  Ins iLDY (Abs (Num 0xC097)); (* 507 *)
  Lab (Tail page 24); (* 508 *)
  Ins iSTA (AbsY (Num (256 * page))); (* 509 *)
  Lab (Tail page 19); (* 512 *)
  Ins iLDA (Abs (Num 0xC097)); (* 513 *)
  Lab (Tail page 15); (* 514 *)
  Ins iSTA (Abs (Lbl (JmpOf 4 page) 2)); (* 515 *)
  Lab (Tail page 11); (* 516 *)
  Ins iLDA (Abs (Num 0xC097)); (* 517 *)
  Lab (Tail page 7); (* 518 *)
  Ins iSTA (Abs (Lbl (JmpOf 4 page) 1)); (* 519 *)
  Lab (JmpOf 4 page); (* 520 *)
  Patched iJMP (Abs (Lbl (L_op_nop) 0)) (* 521 *)
].

(** main.s 524-567: [.macro op_tick_6 page] *)
Definition op_tick_6 (page : Z) : list stmt := [
  Lab (OpTick 6 page); (* 526 *)
  Ins iSTA (Abs (Num 0xC030)); (* 527 *)
  Ins iNOP Impl; (* 528 *)
  Ins iSTA (Abs (Num 0xC030)); (* 529 *)
  Ins iSTA (Zp (Num 0x8)); (* 531 *)
  Lab (Tail page 60); (* 533 *)
  Ins iLDA (Abs (Num 0xC097)); (* 534 *)
  Lab (Tail page 56); (* 536 *)
  Ins iLDY (Abs (Num 0xC097)); (* 537 *)
  Lab (Tail page 52); (* 538 *)
  Ins iSTA (AbsY (Num (256 * page))); (* 539 *)
  Lab (Tail page 47); (* 540 *)
  Ins iLDY (Abs (Num 0xC097)); (* 541 *)
  Lab (Tail page 43); (* 542 *)
  Ins iSTA (AbsY (Num (256 * page))); (* 543 *)
  Lab (Tail page 38); (* 544 *)
  Ins iLDY (Abs (Num 0xC097)); (* 545 *)
  Lab (Tail page 34); (* 546 *)
  Ins iSTA (AbsY (Num (256 * page))); (* 547 *)
  Lab (Tail page 29); (* 548 *)
  Ins iLDY (Abs (Num 0xC097)); (* 549 *)
  Lab (Tail page 25); (* 550 *)
  Ins iSTA (AbsY (Num (256 * page))); (* 551 *)
  Lab (Tail page 20); (* 553 *)
  Ins iLDA (Abs (Num 0xC097)); (* 554 *)
  Lab (Tail page 16); (* 555 *)
  Ins iSTA (Abs (Lbl (JmpOf 6 page) 2)); (* 556 *)
  Lab (Tail page 12); (* 557 *)
  Ins iLDA (Abs (Num 0xC097)); (* 558 *)
  Lab (Tail page 8); (* 559 *)
  Ins iSTA (AbsX (Lbl (JmpOf 6 page) 1)); (* 563 *)
  Lab (JmpOf 6 page); (* 565 *)
  Patched iJMP (Abs (Lbl (L_op_nop) 0)) (* 566 *)
].

(** main.s 569-578: [.macro op_tick_8 page] *)
Definition op_tick_8 (page : Z) : list stmt := [
  Lab (OpTick 8 page); (* 571 *)
  Ins iSTA (Abs (Num 0xC030)); (* 572 *)
  Ins iLDA (Abs (Num 0xC097)); (* 573 *)
  Ins iSTA (Abs (Num 0xC030)); (* 574 *)
  Ins iSTA (Zp (Num 0x8)); (* 576 *)
  Ins iJMP (Abs (Lbl (Tail page 55) 0)) (* 577 *)
].

(** main.s 580-589: [.macro op_tick_10 page] *)
Definition op_tick_10 (page : Z) : list stmt := [
  Lab (OpTick 10 page); (* 582 *)
  Ins iSTA (Abs (Num 0xC030)); (* 583 *)
  Ins iLDA (Abs (Num 0xC097)); (* 584 *)
  Ins iNOP Impl; (* 585 *)
  Ins iSTA (Abs (Num 0xC030)); (* 586 *)
  Ins iJMP (Abs (Lbl (Tail page 56) 0)) (* 588 *)
].

(** main.s 591-601: [.macro op_tick_12 page] *)
Definition op_tick_12 (page : Z) : list stmt := [
  Lab (OpTick 12 page); (* 593 *)
  Ins iSTA (Abs (Num 0xC030)); (* 594 *)
  Ins iLDA (Abs (Num 0xC097)); (* 595 *)
  Ins iLDY (Abs (Num 0xC097)); (* 596 *)
  Ins iSTA (Abs (Num 0xC030)); (* 597 *)
  Ins iSTA (Zp (Num 0x8)); (* 599 *)
  Ins iJMP (Abs (Lbl (Tail page 51) 0)) (* 600 *)
].

(** main.s 603-613: [.macro op_tick_14 page] *)
Definition op_tick_14 (page : Z) : list stmt := [
  Lab (OpTick 14 page); (* 605 *)
  Ins iSTA (Abs (Num 0xC030)); (* 606 *)
  Ins iLDA (Abs (Num 0xC097)); (* 607 *)
  Ins iLDY (Abs (Num 0xC097)); (* 608 *)
  Ins iNOP Impl; (* 609 *)
  Ins iSTA (Abs (Num 0xC030)); (* 610 *)
  Ins iJMP (Abs (Lbl (Tail page 52) 0)) (* 612 *)
].

(** main.s 615-631: [.macro op_tick_16 page] *)
Definition op_tick_16 (page : Z) : list stmt := [
  Lab (OpTick 16 page); (* 617 *)
  Ins iSTA (Abs (Num 0xC030)); (* 618 *)
  Ins iLDA (Abs (Num 0xC097)); (* 619 *)
  Ins iLDX (Abs (Num 0xC097)); (* 623 *)
  Ins iLDY (Abs (Num 0xC097)); (* 624 *)
  Ins iSTA (Abs (Num 0xC030)); (* 625 *)
  Ins iSTA (AbsX (Num (256 * page))); (* 627 *)
  Ins iLDX (Imm (Num 0x0)); (* 628 *)
  Ins iJMP (Abs (Lbl (Tail page 43) 0)) (* 630 *)
].

(** main.s 633-665: [.macro op_tick_18 page] *)
Definition op_tick_18 (page : Z) : list stmt := [
  Lab (OpTick 18 page); (* 635 *)
  Ins iSTA (Abs (Num 0xC030)); (* 636 *)
  Ins iLDA (Abs (Num 0xC097)); (* 637 *)
  Ins iLDY (Abs (Num 0xC097)); (* 638 *)
  Ins iLDX (Abs (Num 0xC097)); (* 641 *)
  Ins iNOP Impl; (* 642 *)
  Ins iSTA (Abs (Num 0xC030)); (* 643 *)
  Ins iSTA (AbsY (Num (256 * page))); (* 645 *)
  Ins iSTA (AbsX (Num (256 * page))); (* 646 *)
  Ins iLDX (Imm (Num 0x0)); (* 648 *)
  Ins iNOP Impl; (* 651 *)
  Ins iLDY (Abs (Num 0xC097)); (* 653 *)
  Ins iSTA (AbsY (Num (256 * page))); (* 654 *)
  Ins iLDY (Abs (Num 0xC097)); (* 655 *)
  Ins iSTA (AbsY (Num (256 * page))); (* 656 *)
  Ins iLDA (Abs (Num 0xC097)); (* 659 *)
  Ins iSTA (Abs (Lbl (JmpOf 18 page) 2)); (* 660 *)
  Ins iLDA (Abs (Num 0xC097)); (* 661 *)
  Ins iSTA (Abs (Lbl (JmpOf 18 page) 1)); (* 662 *)
  Lab (JmpOf 18 page); (* 663 *)
  Patched iJMP (Abs (Lbl (L_op_nop) 0)) (* 664 *)
].

(** main.s 667-678: [.macro op_tick_20 page] *)
Definition op_tick_20 (page : Z) : list stmt := [
  Lab (OpTick 20 page); (* 669 *)
  Ins iSTA (Abs (Num 0xC030)); (* 670 *)
  Ins iLDA (Abs (Num 0xC097)); (* 671 *)
  Ins iLDY (Abs (Num 0xC097)); (* 672 *)
  Ins iSTA (AbsY (Num (256 * page))); (* 673 *)
  Ins iSTA (Zp (Num 0x8)); (* 674 *)
  Ins iSTA (Abs (Num 0xC030)); (* 675 *)
  Ins iJMP (Abs (Lbl (Tail page 46) 0)) (* 677 *)
].

(** main.s 681-693: [.macro op_tick_22 page] *)
Definition op_tick_22 (page : Z) : list stmt := [
  Lab (OpTick 22 page); (* 683 *)
  Ins iSTA (Abs (Num 0xC030)); (* 684 *)
  Ins iLDA (Abs (Num 0xC097)); (* 685 *)
  Ins iLDY (Abs (Num 0xC097)); (* 686 *)
  Ins iSTA (AbsY (Num (256 * page))); (* 687 *)
  Ins iLDY (Abs (Num 0xC097)); (* 688 *)
  Ins iSTA (Abs (Num 0xC030)); (* 689 *)
  Ins iSTA (Zp (Num 0x8)); (* 691 *)
  Ins iJMP (Abs (Lbl (Tail page 42) 0)) (* 692 *)
].

(** main.s 695-707: [.macro op_tick_24 page] *)
Definition op_tick_24 (page : Z) : list stmt := [
  Lab (OpTick 24 page); (* 697 *)
  Ins iSTA (Abs (Num 0xC030)); (* 698 *)
  Ins iLDA (Abs (Num 0xC097)); (* 699 *)
  Ins iLDY (Abs (Num 0xC097)); (* 700 *)
  Ins iSTA (AbsY (Num (256 * page))); (* 701 *)
  Ins iLDY (Abs (Num 0xC097)); (* 702 *)
  Ins iSTA (Zp (Num 0x8)); (* 703 *)
  Ins iSTA (Abs (Num 0xC030)); (* 704 *)
  Ins iJMP (Abs (Lbl (Tail page 42) 0)) (* 706 *)
].

(** main.s 709-722: [.macro op_tick_26 page] *)
Definition op_tick_26 (page : Z) : list stmt := [
  Lab (OpTick 26 page); (* 711 *)
  Ins iSTA (Abs (Num 0xC030)); (* 712 *)
  Ins iLDA (Abs (Num 0xC097)); (* 713 *)
  Ins iLDY (Abs (Num 0xC097)); (* 714 *)
  Ins iSTA (AbsY (Num (256 * page))); (* 715 *)
  Ins iLDY (Abs (Num 0xC097)); (* 716 *)
  Ins iSTA (AbsY (Num (256 * page))); (* 717 *)
  Ins iSTA (Abs (Num 0xC030)); (* 718 *)
  Ins iSTA (Zp (Num 0x8)); (* 720 *)
  Ins iJMP (Abs (Lbl (Tail page 37) 0)) (* 721 *)
].

(** main.s 724-737: [.macro op_tick_28 page] *)
Definition op_tick_28 (page : Z) : list stmt := [
  Lab (OpTick 28 page); (* 726 *)
  Ins iSTA (Abs (Num 0xC030)); (* 727 *)
  Ins iLDA (Abs (Num 0xC097)); (* 728 *)
  Ins iLDY (Abs (Num 0xC097)); (* 729 *)
  Ins iSTA (AbsY (Num (256 * page))); (* 730 *)
  Ins iLDY (Abs (Num 0xC097)); (* 731 *)
  Ins iSTA (AbsY (Num (256 * page))); (* 732 *)
  Ins iNOP Impl; (* 733 *)
  Ins iSTA (Abs (Num 0xC030)); (* 734 *)
  Ins iJMP (Abs (Lbl (Tail page 38) 0)) (* 736 *)
].

(** main.s 739-753: [.macro op_tick_30 page] *)
Definition op_tick_30 (page : Z) : list stmt := [
  Lab (OpTick 30 page); (* 741 *)
  Ins iSTA (Abs (Num 0xC030)); (* 742 *)
  Ins iLDA (Abs (Num 0xC097)); (* 743 *)
  Ins iLDY (Abs (Num 0xC097)); (* 744 *)
  Ins iSTA (AbsY (Num (256 * page))); (* 745 *)
  Ins iLDY (Abs (Num 0xC097)); (* 746 *)
  Ins iSTA (AbsY (Num (256 * page))); (* 747 *)
  Ins iLDY (Abs (Num 0xC097)); (* 748 *)
  Ins iSTA (Abs (Num 0xC030)); (* 749 *)
  Ins iSTA (Zp (Num 0x8)); (* 751 *)
  Ins iJMP (Abs (Lbl (Tail page 33) 0)) (* 752 *)
].

(** main.s 755-769: [.macro op_tick_32 page] *)
Definition op_tick_32 (page : Z) : list stmt := [
  Lab (OpTick 32 page); (* 757 *)
  Ins iSTA (Abs (Num 0xC030)); (* 758 *)
  Ins iLDA (Abs (Num 0xC097)); (* 759 *)
  Ins iLDY (Abs (Num 0xC097)); (* 760 *)
  Ins iSTA (AbsY (Num (256 * page))); (* 761 *)
  Ins iLDY (Abs (Num 0xC097)); (* 762 *)
  Ins iSTA (AbsY (Num (256 * page))); (* 763 *)
  Ins iLDY (Abs (Num 0xC097)); (* 764 *)
  Ins iNOP Impl; (* 765 *)
  Ins iSTA (Abs (Num 0xC030)); (* 766 *)
  Ins iJMP (Abs (Lbl (Tail page 34) 0)) (* 768 *)
].

(** main.s 771-790: [.macro op_tick_34 page] *)
Definition op_tick_34 (page : Z) : list stmt := [
  Lab (OpTick 34 page); (* 773 *)
  Ins iSTA (Abs (Num 0xC030)); (* 774 *)
  Ins iLDA (Abs (Num 0xC097)); (* 775 *)
  Ins iLDY (Abs (Num 0xC097)); (* 776 *)
  Ins iSTA (AbsY (Num (256 * page))); (* 777 *)
  Ins iLDY (Abs (Num 0xC097)); (* 778 *)
  Ins iSTA (AbsY (Num (256 * page))); (* 779 *)
  Ins iLDY (Abs (Num 0xC097)); (* 780 *)
  Ins iLDX (Abs (Num 0xC097)); (* 781 *)
  Ins iSTA (Abs (Num 0xC030)); (* 782 *)
  Ins iSTA (AbsY (Num (256 * page))); (* 784 *)
  Ins iSTA (AbsX (Num (256 * page))); (* 785 *)
  Ins iLDX (Imm (Num 0x0)); (* 787 *)
  Ins iJMP (Abs (Lbl (Tail page 20) 0)) (* 789 *)
].

(** main.s 792-818: [.macro op_tick_36 page] *)
Definition op_tick_36 (page : Z) : list stmt := [
  Lab (OpTick 36 page); (* 794 *)
  Ins iSTA (Abs (Num 0xC030)); (* 795 *)
  Ins iLDA (Abs (Num 0xC097)); (* 796 *)
  Ins iLDY (Abs (Num 0xC097)); (* 797 *)
  Ins iSTA (AbsY (Num (256 * page))); (* 798 *)
  Ins iLDY (Abs (Num 0xC097)); (* 799 *)
  Ins iSTA (AbsY (Num (256 * page))); (* 800 *)
  Ins iLDY (Abs (Num 0xC097)); (* 801 *)
  Ins iLDX (Abs (Num 0xC097)); (* 802 *)
  Ins iNOP Impl; (* 803 *)
  Ins iSTA (Abs (Num 0xC030)); (* 804 *)
  Ins iSTA (AbsY (Num (256 * page))); (* 806 *)
  Ins iSTA (AbsX (Num (256 * page))); (* 807 *)
  Ins iLDX (Imm (Num 0x0)); (* 808 *)
  Ins iNOP Impl; (* 809 *)
  Ins iLDA (Abs (Num 0xC097)); (* 812 *)
  Ins iSTA (Abs (Lbl (JmpOf 36 page) 2)); (* 813 *)
  Ins iLDA (Abs (Num 0xC097)); (* 814 *)
  Ins iSTA (Abs (Lbl (JmpOf 36 page) 1)); (* 815 *)
  Lab (JmpOf 36 page); (* 816 *)
  Patched iJMP (Abs (Lbl (L_op_nop) 0)) (* 817 *)
].

(** main.s 820-835: [.macro op_tick_38 page] *)
Definition op_tick_38 (page : Z) : list stmt := [
  Lab (OpTick 38 page); (* 822 *)
  Ins iSTA (Abs (Num 0xC030)); (* 823 *)
  Ins iLDA (Abs (Num 0xC097)); (* 824 *)
  Ins iLDY (Abs (Num 0xC097)); (* 825 *)
  Ins iSTA (AbsY (Num (256 * page))); (* 826 *)
  Ins iLDY (Abs (Num 0xC097)); (* 827 *)
  Ins iSTA (AbsY (Num (256 * page))); (* 828 *)
  Ins iLDY (Abs (Num 0xC097)); (* 829 *)
  Ins iSTA (AbsY (Num (256 * page))); (* 830 *)
  Ins iSTA (Zp (Num 0x8)); (* 831 *)
  Ins iSTA (Abs (Num 0xC030)); (* 832 *)
  Ins iJMP (Abs (Lbl (Tail page 28) 0)) (* 834 *)
].

(** main.s 838-854: [.macro op_tick_40 page] *)
Definition op_tick_40 (page : Z) : list stmt := [
  Lab (OpTick 40 page); (* 840 *)
  Ins iSTA (Abs (Num 0xC030)); (* 841 *)
  Ins iLDA (Abs (Num 0xC097)); (* 842 *)
  Ins iLDY (Abs (Num 0xC097)); (* 843 *)
  Ins iSTA (AbsY (Num (256 * page))); (* 844 *)
  Ins iLDY (Abs (Num 0xC097)); (* 845 *)
  Ins iSTA (AbsY (Num (256 * page))); (* 846 *)
  Ins iLDY (Abs (Num 0xC097)); (* 847 *)
  Ins iSTA (AbsY (Num (256 * page))); (* 848 *)
  Ins iLDY (Abs (Num 0xC097)); (* 849 *)
  Ins iSTA (Abs (Num 0xC030)); (* 850 *)
  Ins iSTA (Zp (Num 0x8)); (* 852 *)
  Ins iJMP (Abs (Lbl (Tail page 24) 0)) (* 853 *)
].

(** main.s 856-872: [.macro op_tick_42 page] *)
Definition op_tick_42 (page : Z) : list stmt := [
  Lab (OpTick 42 page); (* 858 *)
  Ins iSTA (Abs (Num 0xC030)); (* 859 *)
  Ins iLDA (Abs (Num 0xC097)); (* 860 *)
  Ins iLDY (Abs (Num 0xC097)); (* 861 *)
  Ins iSTA (AbsY (Num (256 * page))); (* 862 *)
  Ins iLDY (Abs (Num 0xC097)); (* 863 *)
  Ins iSTA (AbsY (Num (256 * page))); (* 864 *)
  Ins iLDY (Abs (Num 0xC097)); (* 865 *)
  Ins iSTA (AbsY (Num (256 * page))); (* 866 *)
  Ins iLDY (Abs (Num 0xC097)); (* 867 *)
  Ins iSTA (Zp (Num 0x8)); (* 868 *)
  Ins iSTA (Abs (Num 0xC030)); (* 869 *)
  Ins iJMP (Abs (Lbl (Tail page 24) 0)) (* 871 *)
].

(** main.s 874-891: [.macro op_tick_44 page] *)
Definition op_tick_44 (page : Z) : list stmt := [
  Lab (OpTick 44 page); (* 876 *)
  Ins iSTA (Abs (Num 0xC030)); (* 877 *)
  Ins iLDA (Abs (Num 0xC097)); (* 878 *)
  Ins iLDY (Abs (Num 0xC097)); (* 879 *)
  Ins iSTA (AbsY (Num (256 * page))); (* 880 *)
  Ins iLDY (Abs (Num 0xC097)); (* 881 *)
  Ins iSTA (AbsY (Num (256 * page))); (* 882 *)
  Ins iLDY (Abs (Num 0xC097)); (* 883 *)
  Ins iSTA (AbsY (Num (256 * page))); (* 884 *)
  Ins iLDY (Abs (Num 0xC097)); (* 885 *)
  Ins iSTA (AbsY (Num (256 * page))); (* 886 *)
  Ins iSTA (Abs (Num 0xC030)); (* 887 *)
  Ins iSTA (Zp (Num 0x8)); (* 889 *)
  Ins iJMP (Abs (Lbl (Tail page 19) 0)) (* 890 *)
].

(** main.s 893-910: [.macro op_tick_46 page] *)
Definition op_tick_46 (page : Z) : list stmt := [
  Lab (OpTick 46 page); (* 895 *)
  Ins iSTA (Abs (Num 0xC030)); (* 896 *)
  Ins iLDA (Abs (Num 0xC097)); (* 897 *)
  Ins iLDY (Abs (Num 0xC097)); (* 898 *)
  Ins iSTA (AbsY (Num (256 * page))); (* 899 *)
  Ins iLDY (Abs (Num 0xC097)); (* 900 *)
  Ins iSTA (AbsY (Num (256 * page))); (* 901 *)
  Ins iLDY (Abs (Num 0xC097)); (* 902 *)
  Ins iSTA (AbsY (Num (256 * page))); (* 903 *)
  Ins iLDY (Abs (Num 0xC097)); (* 904 *)
  Ins iSTA (AbsY (Num (256 * page))); (* 905 *)
  Ins iNOP Impl; (* 906 *)
  Ins iSTA (Abs (Num 0xC030)); (* 907 *)
  Ins iJMP (Abs (Lbl (Tail page 20) 0)) (* 909 *)
].

(** main.s 912-931: [.macro op_tick_48 page] *)
Definition op_tick_48 (page : Z) : list stmt := [
  Lab (OpTick 48 page); (* 914 *)
  Ins iSTA (Abs (Num 0xC030)); (* 915 *)
  Ins iLDA (Abs (Num 0xC097)); (* 916 *)
  Ins iLDY (Abs (Num 0xC097)); (* 917 *)
  Ins iSTA (AbsY (Num (256 * page))); (* 918 *)
  Ins iLDY (Abs (Num 0xC097)); (* 919 *)
  Ins iSTA (AbsY (Num (256 * page))); (* 920 *)
  Ins iLDY (Abs (Num 0xC097)); (* 921 *)
  Ins iSTA (AbsY (Num (256 * page))); (* 922 *)
  Ins iLDY (Abs (Num 0xC097)); (* 923 *)
  Ins iSTA (AbsY (Num (256 * page))); (* 924 *)
  Ins iLDA (Abs (Num 0xC097)); (* 926 *)
  Ins iSTA (Abs (Num 0xC030)); (* 927 *)
  Ins iSTA (Zp (Num 0x8)); (* 929 *)
  Ins iJMP (Abs (Lbl (Tail page 15) 0)) (* 930 *)
].

(** main.s 933-952: [.macro op_tick_50 page] *)
Definition op_tick_50 (page : Z) : list stmt := [
  Lab (OpTick 50 page); (* 935 *)
  Ins iSTA (Abs (Num 0xC030)); (* 936 *)
  Ins iLDA (Abs (Num 0xC097)); (* 937 *)
  Ins iLDY (Abs (Num 0xC097)); (* 938 *)
  Ins iSTA (AbsY (Num (256 * page))); (* 939 *)
  Ins iLDY (Abs (Num 0xC097)); (* 940 *)
  Ins iSTA (AbsY (Num (256 * page))); (* 941 *)
  Ins iLDY (Abs (Num 0xC097)); (* 942 *)
  Ins iSTA (AbsY (Num (256 * page))); (* 943 *)
  Ins iLDY (Abs (Num 0xC097)); (* 944 *)
  Ins iSTA (AbsY (Num (256 * page))); (* 945 *)
  Ins iLDA (Abs (Num 0xC097)); (* 947 *)
  Ins iNOP Impl; (* 948 *)
  Ins iSTA (Abs (Num 0xC030)); (* 949 *)
  Ins iJMP (Abs (Lbl (Tail page 16) 0)) (* 951 *)
].

(** main.s 954-974: [.macro op_tick_52 page] *)
Definition op_tick_52 (page : Z) : list stmt := [
  Lab (OpTick 52 page); (* 956 *)
  Ins iSTA (Abs (Num 0xC030)); (* 957 *)
  Ins iLDA (Abs (Num 0xC097)); (* 958 *)
  Ins iLDY (Abs (Num 0xC097)); (* 959 *)
  Ins iSTA (AbsY (Num (256 * page))); (* 960 *)
  Ins iLDY (Abs (Num 0xC097)); (* 961 *)
  Ins iSTA (AbsY (Num (256 * page))); (* 962 *)
  Ins iLDY (Abs (Num 0xC097)); (* 963 *)
  Ins iSTA (AbsY (Num (256 * page))); (* 964 *)
  Ins iLDY (Abs (Num 0xC097)); (* 965 *)
  Ins iSTA (AbsY (Num (256 * page))); (* 966 *)
  Ins iLDA (Abs (Num 0xC097)); (* 968 *)
  Ins iSTA (Abs (Lbl (JmpOf 6 page) 2)); (* 969 *)
  Ins iSTA (Abs (Num 0xC030)); (* 970 *)
  Ins iNOP Impl; (* 971 *)
  Ins iJMP (Abs (Lbl (Tail page 12) 0)) (* 973 *)
].

(** main.s 976-1003: [.macro op_tick_54 page] *)
Definition op_tick_54 (page : Z) : list stmt := [
  Lab (OpTick 54 page); (* 978 *)
  Ins iSTA (Abs (Num 0xC030)); (* 979 *)
  Ins iLDA (Abs (Num 0xC097)); (* 980 *)
  Ins iLDY (Abs (Num 0xC097)); (* 981 *)
  Ins iSTA (AbsY (Num (256 * page))); (* 982 *)
  Ins iLDY (Abs (Num 0xC097)); (* 983 *)
  Ins iSTA (AbsY (Num (256 * page))); (* 984 *)
  Ins iLDY (Abs (Num 0xC097)); (* 985 *)
  Ins iSTA (AbsY (Num (256 * page))); (* 986 *)
  Ins iLDY (Abs (Num 0xC097)); (* 987 *)
  Ins iSTA (AbsY (Num (256 * page))); (* 988 *)
  Ins iLDA (Abs (Num 0xC097)); (* 990 *)
  Ins iSTA (Zp (Num 0x8)); (* 992 *)
  Ins iSTA (Zp (Num 0x8)); (* 993 *)
  Ins iSTA (Abs (Num 0xC030)); (* 995 *)
  Ins iSTA (Abs (Lbl (JmpOf 54 page) 2)); (* 998 *)
  Ins iLDA (Abs (Num 0xC097)); (* 999 *)
  Ins iSTA (Abs (Lbl (JmpOf 54 page) 1)); (* 1000 *)
  Lab (JmpOf 54 page); (* 1001 *)
  Patched iJMP (Abs (Lbl (L_op_nop) 0)) (* 1002 *)
].

(** main.s 1005-1032: [.macro op_tick_56 page] *)
Definition op_tick_56 (page : Z) : list stmt := [
  Lab (OpTick 56 page); (* 1007 *)
  Ins iSTA (Abs (Num 0xC030)); (* 1008 *)
  Ins iLDA (Abs (Num 0xC097)); (* 1009 *)
  Ins iLDY (Abs (Num 0xC097)); (* 1010 *)
  Ins iSTA (AbsY (Num (256 * page))); (* 1011 *)
  Ins iLDY (Abs (Num 0xC097)); (* 1012 *)
  Ins iSTA (AbsY (Num (256 * page))); (* 1013 *)
  Ins iLDY (Abs (Num 0xC097)); (* 1014 *)
  Ins iSTA (AbsY (Num (256 * page))); (* 1015 *)
  Ins iLDY (Abs (Num 0xC097)); (* 1016 *)
  Ins iSTA (AbsY (Num (256 * page))); (* 1017 *)
  Ins iLDA (Abs (Num 0xC097)); (* 1019 *)
  Ins iSTA (Abs (Lbl (JmpOf 56 page) 2)); (* 1020 *)
  Ins iSTA (Abs (Num 0xFFFF)); (* 1022 *)
  Ins iSTA (Abs (Num 0xC030)); (* 1023 *)
  Ins iNOP Impl; (* 1026 *)
  Ins iLDA (Abs (Num 0xC097)); (* 1028 *)
  Ins iSTA (Abs (Lbl (JmpOf 56 page) 1)); (* 1029 *)
  Lab (JmpOf 56 page); (* 1030 *)
  Patched iJMP (Abs (Lbl (L_op_nop) 0)) (* 1031 *)
].

(** main.s 1034-1060: [.macro op_tick_58 page] *)
Definition op_tick_58 (page : Z) : list stmt := [
  Lab (OpTick 58 page); (* 1036 *)
  Ins iSTA (Abs (Num 0xC030)); (* 1037 *)
  Ins iLDA (Abs (Num 0xC097)); (* 1038 *)
  Ins iLDY (Abs (Num 0xC097)); (* 1039 *)
  Ins iSTA (AbsY (Num (256 * page))); (* 1040 *)
  Ins iLDY (Abs (Num 0xC097)); (* 1041 *)
  Ins iSTA (AbsY (Num (256 * page))); (* 1042 *)
  Ins iLDY (Abs (Num 0xC097)); (* 1043 *)
  Ins iSTA (AbsY (Num (256 * page))); (* 1044 *)
  Ins iLDY (Abs (Num 0xC097)); (* 1045 *)
  Ins iSTA (AbsY (Num (256 * page))); (* 1046 *)
  Ins iLDA (Abs (Num 0xC097)); (* 1048 *)
  Ins iSTA (Abs (Lbl (JmpOf 58 page) 2)); (* 1049 *)
  Ins iSTA (Zp (Num 0x8)); (* 1051 *)
  Ins iSTA (Zp (Num 0x8)); (* 1052 *)
  Ins iSTA (Abs (Num 0xC030)); (* 1053 *)
  Ins iLDA (Abs (Num 0xC097)); (* 1056 *)
  Ins iSTA (Abs (Lbl (JmpOf 58 page) 1)); (* 1057 *)
  Lab (JmpOf 58 page); (* 1058 *)
  Patched iJMP (Abs (Lbl (L_op_nop) 0)) (* 1059 *)
].

(** main.s 1062-1089: [.macro op_tick_60 page] *)
Definition op_tick_60 (page : Z) : list stmt := [
  Lab (OpTick 60 page); (* 1064 *)
  Ins iSTA (Abs (Num 0xC030)); (* 1065 *)
  Ins iLDA (Abs (Num 0xC097)); (* 1066 *)
  Ins iLDY (Abs (Num 0xC097)); (* 1067 *)
  Ins iSTA (AbsY (Num (256 * page))); (* 1068 *)
  Ins iLDY (Abs (Num 0xC097)); (* 1069 *)
  Ins iSTA (AbsY (Num (256 * page))); (* 1070 *)
  Ins iLDY (Abs (Num 0xC097)); (* 1072 *)
  Ins iSTA (AbsY (Num (256 * page))); (* 1073 *)
  Ins iLDY (Abs (Num 0xC097)); (* 1074 *)
  Ins iSTA (AbsY (Num (256 * page))); (* 1075 *)
  Ins iLDA (Abs (Num 0xC097)); (* 1077 *)
  Ins iSTA (Abs (Lbl (JmpOf 60 page) 2)); (* 1078 *)
  Ins iLDA (Abs (Num 0xC097)); (* 1079 *)
  Ins iSTA (Abs (Num 0xFFFF)); (* 1081 *)
  Ins iSTA (Abs (Num 0xC030)); (* 1082 *)
  Ins iNOP Impl; (* 1085 *)
  Ins iSTA (Abs (Lbl (JmpOf 60 page) 1)); (* 1086 *)
  Lab (JmpOf 60 page); (* 1087 *)
  Patched iJMP (Abs (Lbl (L_op_nop) 0)) (* 1088 *)
].

(** main.s 1091-1117: [.macro op_tick_62 page] *)
Definition op_tick_62 (page : Z) : list stmt := [
  Lab (OpTick 62 page); (* 1093 *)
  Ins iSTA (Abs (Num 0xC030)); (* 1094 *)
  Ins iLDA (Abs (Num 0xC097)); (* 1095 *)
  Ins iLDY (Abs (Num 0xC097)); (* 1096 *)
  Ins iSTA (AbsY (Num (256 * page))); (* 1097 *)
  Ins iLDY (Abs (Num 0xC097)); (* 1098 *)
  Ins iSTA (AbsY (Num (256 * page))); (* 1099 *)
  Ins iLDY (Abs (Num 0xC097)); (* 1100 *)
  Ins iSTA (AbsY (Num (256 * page))); (* 1101 *)
  Ins iLDY (Abs (Num 0xC097)); (* 1102 *)
  Ins iSTA (AbsY (Num (256 * page))); (* 1103 *)
  Ins iLDA (Abs (Num 0xC097)); (* 1105 *)
  Ins iSTA (Abs (Lbl (JmpOf 62 page) 2)); (* 1106 *)
  Ins iLDA (Abs (Num 0xC097)); (* 1107 *)
  Ins iSTA (Zp (Num 0x8)); (* 1109 *)
  Ins iSTA (Zp (Num 0x8)); (* 1110 *)
  Ins iSTA (Abs (Num 0xC030)); (* 1111 *)
  Ins iSTA (Abs (Lbl (JmpOf 62 page) 1)); (* 1114 *)
  Lab (JmpOf 62 page); (* 1115 *)
  Patched iJMP (Abs (Lbl (L_op_nop) 0)) (* 1116 *)
].

(** main.s 1119-1145: [.macro op_tick_64 page] *)
Definition op_tick_64 (page : Z) : list stmt := [
  Lab (OpTick 64 page); (* 1121 *)
  Ins iSTA (Abs (Num 0xC030)); (* 1122 *)
  Ins iLDA (Abs (Num 0xC097)); (* 1123 *)
  Ins iLDY (Abs (Num 0xC097)); (* 1124 *)
  Ins iSTA (AbsY (Num (256 * page))); (* 1125 *)
  Ins iLDY (Abs (Num 0xC097)); (* 1126 *)
  Ins iSTA (AbsY (Num (256 * page))); (* 1127 *)
  Ins iLDY (Abs (Num 0xC097)); (* 1129 *)
  Ins iSTA (AbsY (Num (256 * page))); (* 1130 *)
  Ins iLDY (Abs (Num 0xC097)); (* 1131 *)
  Ins iSTA (AbsY (Num (256 * page))); (* 1132 *)
  Ins iLDA (Abs (Num 0xC097)); (* 1134 *)
  Ins iSTA (Abs (Lbl (JmpOf 64 page) 2)); (* 1135 *)
  Ins iLDA (Abs (Num 0xC097)); (* 1136 *)
  Ins iSTA (Abs (Lbl (JmpOf 64 page) 1)); (* 1137 *)
  Ins iSTA (Abs (Num 0xFFFF)); (* 1138 *)
  Ins iSTA (Abs (Num 0xC030)); (* 1140 *)
  Ins iNOP Impl; (* 1141 *)
  Lab (JmpOf 64 page); (* 1143 *)
  Patched iJMP (Abs (Lbl (L_op_nop) 0)) (* 1144 *)
].

(** main.s 1147-1173: [.macro op_tick_66 page] *)
Definition op_tick_66 (page : Z) : list stmt := [
  Lab (OpTick 66 page); (* 1149 *)
  Ins iSTA (Abs (Num 0xC030)); (* 1150 *)
  Ins iLDA (Abs (Num 0xC097)); (* 1151 *)
  Ins iLDY (Abs (Num 0xC097)); (* 1152 *)
  Ins iSTA (AbsY (Num (256 * page))); (* 1153 *)
  Ins iLDY (Abs (Num 0xC097)); (* 1154 *)
  Ins iSTA (AbsY (Num (256 * page))); (* 1155 *)
  Ins iLDY (Abs (Num 0xC097)); (* 1157 *)
  Ins iSTA (AbsY (Num (256 * page))); (* 1158 *)
  Ins iLDY (Abs (Num 0xC097)); (* 1159 *)
  Ins iSTA (AbsY (Num (256 * page))); (* 1160 *)
  Ins iLDA (Abs (Num 0xC097)); (* 1162 *)
  Ins iSTA (Abs (Lbl (JmpOf 66 page) 2)); (* 1163 *)
  Ins iLDA (Abs (Num 0xC097)); (* 1164 *)
  Ins iSTA (Abs (Lbl (JmpOf 66 page) 1)); (* 1165 *)
  Ins iSTA (Zp (Num 0x8)); (* 1167 *)
  Ins iSTA (Zp (Num 0x8)); (* 1168 *)
  Ins iSTA (Abs (Num 0xC030)); (* 1169 *)
  Lab (JmpOf 66 page); (* 1171 *)
  Patched iJMP (Abs (Lbl (L_op_nop) 0)) (* 1172 *)
].

(** main.s 1176-1209: [.macro op_tick page] *)
Definition op_tick (page : Z) : list stmt :=
  op_tick_4 page ++ op_tick_6 page ++ op_tick_8 page ++ op_tick_10 page ++ op_tick_12 page ++ op_tick_14 page ++ op_tick_16 page ++ op_tick_18 page ++ op_tick_20 page ++ op_tick_22 page ++ op_tick_24 page ++ op_tick_26 page ++ op_tick_28 page ++ op_tick_30 page ++ op_tick_32 page ++ op_tick_34 page ++ op_tick_36 page ++ op_tick_38 page ++ op_tick_40 page ++ op_tick_42 page ++ op_tick_44 page ++ op_tick_46 page ++ op_tick_48 page ++ op_tick_50 page ++ op_tick_52 page ++ op_tick_54 page ++ op_tick_56 page ++ op_tick_58 page ++ op_tick_60 page ++ op_tick_62 page ++ op_tick_64 page ++ op_tick_66 page.

(** main.s 36-39, segment HGR *)
Definition hgr_1 : list stmt := [
  Lab (L_SRCADDR); (* 36 *)
  Bytes [0x0A; 0x00; 0x41; 0x02]; (* 36 *)
  Lab (L_FADDR); (* 37 *)
  Bytes [0x0A; 0x00; 0x00; 0x01]; (* 37 *)
  Lab (L_FPORT); (* 38 *)
  Bytes [0x07; 0xB9]; (* 38 *)
  Lab (L_MAC); (* 39 *)
  Bytes [0x00; 0x08; 0xDC; 0x01; 0x02; 0x03] (* 39 *)
].

(** main.s 122-122, segment LOWCODE *)
Definition lowcode_2 : list stmt := [
  Ins iJMP (Abs (Lbl (L_bootstrap) 0)) (* 122 *)
].

(** main.s 129-308, segment HGR *)
Definition hgr_3 : list stmt := [
  Lab (L_bootstrap); (* 129 *)
  Ins iLDA (Imm (Lo (Lbl (L_exit) 0))); (* 131 *)
  Ins iSTA (Abs (Num 0x3F2)); (* 132 *)
  Ins iLDA (Imm (Hi (Lbl (L_exit) 0))); (* 133 *)
  Ins iSTA (Abs (Num 0x3F3)); (* 134 *)
  Ins iEOR (Imm (Num 0xA5)); (* 135 *)
  Ins iSTA (Abs (Num 0x3F4)); (* 136 *)
  Ins iLDA (Imm (Num 0x6)); (* 138 *)
  Ins iSTA (Zp (Num 0x6)); (* 139 *)
  Lab (L_reset_w5100); (* 141 *)
  Ins iLDA (Imm (Num 0x80)); (* 142 *)
  Ins iSTA (Abs (Num 0xC094)); (* 143 *)
  Ins iLDA (Imm (Num 0x3)); (* 144 *)
  Ins iSTA (Abs (Num 0xC094)); (* 145 *)
  Ins iLDA (Imm (Hi (Num 0x9))); (* 148 *)
  Ins iSTA (Abs (Num 0xC095)); (* 149 *)
  Ins iLDA (Imm (Lo (Num 0x9))); (* 150 *)
  Ins iSTA (Abs (Num 0xC096)); (* 151 *)
  Ins iLDX (Imm (Num 0x0)); (* 152 *)
  Lab (L_reset_w5100_atL1); (* 153 *)
  Ins iLDA (AbsX (Lbl (L_MAC) 0)); (* 154 *)
  Ins iSTA (Abs (Num 0xC097)); (* 155 *)
  Ins iINX Impl; (* 156 *)
  Ins iCPX (Imm (Num 0x6)); (* 157 *)
  Ins iBNE (Rel (Lbl (L_reset_w5100_atL1) 0)); (* 158 *)
  Ins iLDA (Imm (Lo (Num 0xF))); (* 161 *)
  Ins iSTA (Abs (Num 0xC096)); (* 162 *)
  Ins iLDX (Imm (Num 0x0)); (* 163 *)
  Lab (L_reset_w5100_atL2); (* 164 *)
  Ins iLDA (AbsX (Lbl (L_SRCADDR) 0)); (* 165 *)
  Ins iSTA (Abs (Num 0xC097)); (* 166 *)
  Ins iINX Impl; (* 167 *)
  Ins iCPX (Imm (Num 0x4)); (* 168 *)
  Ins iBNE (Rel (Lbl (L_reset_w5100_atL2) 0)); (* 169 *)
  Ins iLDA (Imm (Lo (Num 0x1A))); (* 173 *)
  Ins iSTA (Abs (Num 0xC096)); (* 174 *)
  Ins iLDA (Imm (Num 0x3)); (* 175 *)
  Ins iSTA (Abs (Num 0xC097)); (* 176 *)
  Ins iSTA (Abs (Num 0xC097)); (* 177 *)
  Ins iLDA (Imm (Hi (Num 0x400))); (* 181 *)
  Ins iSTA (Abs (Num 0xC095)); (* 182 *)
  Ins iLDA (Imm (Lo (Num 0x400))); (* 183 *)
  Ins iSTA (Abs (Num 0xC096)); (* 184 *)
  Ins iLDA (Imm (Num 0x21)); (* 185 *)
  Ins iSTA (Abs (Num 0xC097)); (* 186 *)
  Ins iLDA (Imm (Lo (Num 0x404))); (* 190 *)
  Ins iSTA (Abs (Num 0xC096)); (* 191 *)
  Ins iLDA (Imm (Num 0xC0)); (* 192 *)
  Ins iSTA (Abs (Num 0xC097)); (* 193 *)
  Ins iLDA (Imm (Num 0x0)); (* 194 *)
  Ins iSTA (Abs (Num 0xC097)); (* 195 *)
  Ins iLDA (Imm (Lo (Num 0x40C))); (* 198 *)
  Ins iSTA (Abs (Num 0xC096)); (* 199 *)
  Ins iLDX (Imm (Num 0x0)); (* 200 *)
  Lab (L_reset_w5100_atL3); (* 201 *)
  Ins iLDA (AbsX (Lbl (L_FADDR) 0)); (* 202 *)
  Ins iSTA (Abs (Num 0xC097)); (* 203 *)
  Ins iINX Impl; (* 204 *)
  Ins iCPX (Imm (Num 0x4)); (* 205 *)
  Ins iBNE (Rel (Lbl (L_reset_w5100_atL3) 0)); (* 206 *)
  Ins iLDA (Abs (Lbl (L_FPORT) 0)); (* 209 *)
  Ins iSTA (Abs (Num 0xC097)); (* 210 *)
  Ins iLDA (Abs (Lbl (L_FPORT) 1)); (* 211 *)
  Ins iSTA (Abs (Num 0xC097)); (* 212 *)
  Ins iLDA (Imm (Lo (Num 0x401))); (* 215 *)
  Ins iSTA (Abs (Num 0xC096)); (* 216 *)
  Ins iLDA (Imm (Num 0x1)); (* 217 *)
  Ins iSTA (Abs (Num 0xC097)); (* 218 *)
  Ins iLDA (Imm (Lo (Num 0x403))); (* 221 *)
  Ins iSTA (Abs (Num 0xC096)); (* 222 *)
  Ins iLDA (Abs (Num 0xC097)); (* 223 *)
  Ins iCMP (Imm (Num 0x13)); (* 224 *)
  Ins iBEQ (Rel (Lbl (L_OPENED) 0)); (* 225 *)
  Ins iLDY (Imm (Num 0x0)); (* 226 *)
  Lab (L_reset_w5100_atL4); (* 227 *)
  Ins iLDA (AbsY (Lbl (L_reset_w5100_atSOCKERR) 0)); (* 228 *)
  Ins iBEQ (Rel (Lbl (L_reset_w5100_atLDONE) 0)); (* 229 *)
  Ins iJSR (Abs (Num 0xFDED)); (* 230 *)
  Ins iINY Impl; (* 231 *)
  Ins iBNE (Rel (Lbl (L_reset_w5100_atL4) 0)); (* 232 *)
  Lab (L_reset_w5100_atLDONE); (* 233 *)
  Ins iBRK Impl; (* 233 *)
  Lab (L_reset_w5100_atSOCKERR); (* 234 *)
  Bytes [0xD5; 0xD4; 0xC8; 0xC5; 0xD2; 0xCE; 0xC5; 0xD4; 0xA0; 0xC9; 0xC9; 0xBA; 0xA0; 0xC3; 0xCF; 0xD5; 0xCC; 0xC4; 0xA0; 0xCE; 0xCF; 0xD4; 0xA0; 0xCF; 0xD0; 0xC5; 0xCE; 0xA0; 0xD3; 0xCF; 0xC3; 0xCB; 0xC5; 0xD4; 0xA1]; (* 234 *)
  Bytes [0x8D; 0x00]; (* 236 *)
  Lab (L_OPENED); (* 239 *)
  Ins iLDA (Imm (Lo (Num 0x401))); (* 240 *)
  Ins iSTA (Abs (Num 0xC096)); (* 241 *)
  Ins iLDA (Imm (Num 0x4)); (* 242 *)
  Ins iSTA (Abs (Num 0xC097)); (* 243 *)
  Lab (L_CHECKTEST); (* 247 *)
  Ins iLDA (Imm (Lo (Num 0x403))); (* 248 *)
  Ins iSTA (Abs (Num 0xC096)); (* 249 *)
  Ins iLDA (Abs (Num 0xC097)); (* 250 *)
  Ins iBEQ (Rel (Lbl (L_FAILED) 0)); (* 251 *)
  Ins iCMP (Imm (Num 0x17)); (* 252 *)
  Ins iBEQ (Rel (Lbl (L_wait_read_header) 0)); (* 253 *)
  Ins iBNE (Rel (Lbl (L_CHECKTEST) 0)); (* 254 *)
  Lab (L_FAILED); (* 256 *)
  Ins iDEC (Zp (Num 0x6)); (* 257 *)
  Ins iBEQ (Rel (Lbl (L_ERRDONE) 0)); (* 258 *)
  Ins iLDA (Imm (Num 0xAE)); (* 259 *)
  Ins iJSR (Abs (Num 0xFDED)); (* 260 *)
  Ins iJMP (Abs (Lbl (L_reset_w5100) 0)); (* 261 *)
  Lab (L_ERRDONE); (* 263 *)
  Ins iLDY (Imm (Num 0x0)); (* 264 *)
  Lab (L_ERRDONE_atL); (* 265 *)
  Ins iLDA (AbsY (Lbl (L_ERRMSG) 0)); (* 266 *)
  Ins iBEQ (Rel (Lbl (L_ERRDONE_atDONE) 0)); (* 267 *)
  Ins iJSR (Abs (Num 0xFDED)); (* 268 *)
  Ins iINY Impl; (* 269 *)
  Ins iBNE (Rel (Lbl (L_ERRDONE_atL) 0)); (* 270 *)
  Lab (L_ERRDONE_atDONE); (* 271 *)
  Ins iBRK Impl; (* 271 *)
  Lab (L_ERRMSG); (* 273 *)
  Bytes [0xD3; 0xCF; 0xC3; 0xCB; 0xC5; 0xD4; 0xA0; 0xC3; 0xCF; 0xD5; 0xCC; 0xC4; 0xA0; 0xCE; 0xCF; 0xD4; 0xA0; 0xC3; 0xCF; 0xCE; 0xCE; 0xC5; 0xC3; 0xD4; 0xA0; 0xAD; 0xA0; 0xC3; 0xC8; 0xC5; 0xC3; 0xCB; 0xA0; 0xD2; 0xC5; 0xCD; 0xCF; 0xD4; 0xC5; 0xA0; 0xC8; 0xCF; 0xD3; 0xD4]; (* 273 *)
  Bytes [0x8D; 0x00]; (* 275 *)
  Lab (L_wait_read_header); (* 277 *)
  Ins iLDA (Imm (Lo (Num 0x426))); (* 278 *)
  Ins iSTA (Abs (Num 0xC096)); (* 279 *)
  Ins iLDA (Abs (Num 0xC097)); (* 280 *)
  Ins iCMP (Imm (Num 0x1)); (* 281 *)
  Ins iBCS (Rel (Lbl (L_op_header) 0)); (* 282 *)
  Ins iNOP Impl; (* 285 *)
  Ins iNOP Impl; (* 286 *)
  Ins iJMP (Abs (Lbl (L_wait_read_header) 0)); (* 287 *)
  Lab (L_op_header); (* 289 *)
  Ins iLDA (Imm (Hi (Num 0x6000))); (* 291 *)
  Ins iSTA (Abs (Num 0xC095)); (* 292 *)
  Ins iLDA (Imm (Lo (Num 0x6000))); (* 293 *)
  Ins iSTA (Abs (Num 0xC096)); (* 294 *)
  Ins iLDA (Abs (Num 0xC097)); (* 301 *)
  Ins iLDA (Abs (Num 0xC097)); (* 302 *)
  Ins iLDA (Abs (Num 0xC097)); (* 303 *)
  Ins iLDA (Abs (Num 0xC097)); (* 304 *)
  Ins iLDA (Abs (Num 0xC097)); (* 305 *)
  Ins iLDA (Abs (Num 0xC097)); (* 306 *)
  Ins iJMP (Abs (Lbl (L_op_header_hgr) 0)) (* 308 *)
].

(** main.s 314-456, segment CODE *)
Definition code_4 : list stmt := [
  Lab (L_op_header_hgr); (* 314 *)
  Ins iSTA (Abs (Num 0xC057)); (* 317 *)
  Ins iSTA (Abs (Num 0xC052)); (* 318 *)
  Ins iLDA (Imm (Num 0x20)); (* 320 *)
  Ins iSTA (Zp (Num 0xE6)); (* 321 *)
  Ins iJSR (Abs (Num 0xF3F2)); (* 322 *)
  Ins iLDA (Abs (Num 0xC097)); (* 324 *)
  Ins iBEQ (Rel (Lbl (L_op_header_hgr_at1) 0)); (* 325 *)
  Ins iSTA (Abs (Num 0xC001)); (* 329 *)
  Ins iSTA (Abs (Num 0xC055)); (* 332 *)
  Ins iLDA (Imm (Num 0x20)); (* 334 *)
  Ins iSTA (Zp (Num 0xE6)); (* 335 *)
  Ins iJSR (Abs (Num 0xF3F2)); (* 336 *)
  Ins iSTA (Abs (Num 0xC054)); (* 337 *)
  Ins iSTA (Abs (Num 0xC050)); (* 339 *)
  Ins iSTA (Abs (Num 0xC00D)); (* 340 *)
  Ins iSTA (Abs (Num 0xC05E)); (* 341 *)
  Lab (L_op_header_hgr_at1); (* 342 *)
  Ins iSTA (Abs (Num 0xC050)); (* 343 *)
  Ins iLDY (Imm (Hi (Num 0x6000))); (* 346 *)
  Ins iLDX (Imm (Num 0x7)); (* 347 *)
  Ins iLDA (Imm (Hi (Num 0x426))); (* 349 *)
  Ins iSTA (Abs (Num 0xC095)); (* 350 *)
  Lab (L_checkrecv); (* 399 *)
  Ins iSTA (Abs (Num 0xC030)); (* 400 *)
  Ins iLDA (Imm (Lo (Num 0x426))); (* 402 *)
  Ins iSTA (Abs (Num 0xC096)); (* 403 *)
  Ins iLDA (Abs (Num 0xC097)); (* 404 *)
  Ins iCMP (Imm (Num 0x8)); (* 405 *)
  Ins iBCS (Rel (Lbl (L_recv) 0)); (* 407 *)
  Ins iNOP Impl; (* 410 *)
  Ins iNOP Impl; (* 411 *)
  Ins iJMP (Abs (Lbl (L_checkrecv) 0)); (* 412 *)
  Lab (L_recv); (* 418 *)
  Ins iSTY (Abs (Num 0xC095)); (* 421 *)
  Ins iSTX (Abs (Num 0xC096)); (* 422 *)
  Lab (L_recv_at0); (* 425 *)
  Ins iBIT (Abs (Num 0xC000)); (* 425 *)
  Ins iBPL (Rel (Lbl (L_recv_at2) 0)); (* 427 *)
  Ins iBIT (Abs (Num 0xC010)); (* 430 *)
  Lab (L_recv_at1); (* 431 *)
  Ins iBIT (Abs (Num 0xC000)); (* 431 *)
  Ins iBPL (Rel (Lbl (L_recv_at1) 0)); (* 432 *)
  Ins iBIT (Abs (Num 0xC010)); (* 433 *)
  Lab (L_recv_at2); (* 439 *)
  Ins iSTA (Abs (Num 0xC030)); (* 440 *)
  Ins iLDX (Imm (Num 0x0)); (* 443 *)
  Ins iNOP Impl; (* 445 *)
  Ins iSTA (Abs (Num 0xFFFF)); (* 446 *)
  Ins iSTA (Abs (Num 0xFFFF)); (* 447 *)
  Ins iSTA (Abs (Num 0xFFFF)); (* 448 *)
  Lab (L_op_nop); (* 450 *)
  Ins iLDY (Abs (Num 0xC097)); (* 451 *)
  Ins iSTY (Abs (Lbl (L_op_nop_atD) 2)); (* 452 *)
  Ins iLDY (Abs (Num 0xC097)); (* 453 *)
  Ins iSTY (Abs (Lbl (L_op_nop_atD) 1)); (* 454 *)
  Lab (L_op_nop_atD); (* 455 *)
  Patched iJMP (Abs (Lbl (L_op_nop) 0)) (* 456 *)
].

(** main.s 1281-1368, segment CODE *)
Definition code_5 : list stmt := [
  Lab (L_op_terminate); (* 1281 *)
  Ins iLDA (Abs (Num 0xC010)); (* 1282 *)
  Lab (L_op_terminate_at0); (* 1283 *)
  Ins iLDA (Abs (Num 0xC000)); (* 1284 *)
  Ins iBPL (Rel (Lbl (L_op_terminate_at0) 0)); (* 1285 *)
  Lab (L_op_terminate_at1); (* 1286 *)
  Ins iLDA (Abs (Num 0xC010)); (* 1287 *)
  Ins iJMP (Abs (Lbl (L_exit) 0)); (* 1288 *)
  Lab (L_op_ack); (* 1295 *)
  Ins iSTA (Abs (Num 0xC030)); (* 1296 *)
  Ins iLDA (Abs (Num 0xC097)); (* 1300 *)
  Ins iSTA (Abs (Lbl (L_op_ack_atD) 1)); (* 1301 *)
  Lab (L_op_ack_atD); (* 1302 *)
  PatchedLo iSTA (Abs (Num 0xC0FF)); (* 1303 *)
  Ins iLDA (Abs (Num 0xC097)); (* 1304 *)
  Ins iLDY (Abs (Num 0xC095)); (* 1309 *)
  Ins iLDA (Imm (Hi (Num 0x428))); (* 1312 *)
  Ins iSTA (Abs (Num 0xC095)); (* 1313 *)
  Ins iLDX (Imm (Lo (Num 0x428))); (* 1314 *)
  Ins iCLC Impl; (* 1316 *)
  Ins iSTA (Abs (Num 0xC030)); (* 1318 *)
  Ins iSTX (Abs (Num 0xC096)); (* 1320 *)
  Ins iLDA (Abs (Num 0xC097)); (* 1322 *)
  Ins iADC (Imm (Num 0x8)); (* 1327 *)
  Ins iSTX (Abs (Num 0xC096)); (* 1329 *)
  Ins iSTA (Abs (Num 0xC097)); (* 1330 *)
  Ins iLDA (Imm (Lo (Num 0x401))); (* 1334 *)
  Ins iSTA (Abs (Num 0xC096)); (* 1335 *)
  Ins iLDA (Imm (Num 0x40)); (* 1336 *)
  Ins iSTA (Abs (Num 0xC097)); (* 1337 *)
  Ins iLDX (Imm (Num 0x0)); (* 1342 *)
  Ins iJMP (Abs (Lbl (L_checkrecv) 0)); (* 1344 *)
  Lab (L_exit); (* 1347 *)
  Ins iINC (Abs (Num 0x3F4)); (* 1348 *)
  Ins iJSR (Abs (Num 0xBF00)); (* 1349 *)
  Bytes [0x65]; (* 1350 *)
  Word (Lbl (L_exit_parmtable) 0); (* 1351 *)
  Lab (L_exit_parmtable); (* 1353 *)
  Bytes [0x04]; (* 1354 *)
  Bytes [0x00]; (* 1355 *)
  Word (Num 0x0); (* 1356 *)
  Bytes [0x00]; (* 1357 *)
  Word (Num 0x0); (* 1358 *)
  Lab (L_CLOSECONN); (* 1362 *)
  Ins iLDA (Imm (Hi (Num 0x401))); (* 1363 *)
  Ins iSTA (Abs (Num 0xC095)); (* 1364 *)
  Ins iLDA (Imm (Lo (Num 0x401))); (* 1365 *)
  Ins iSTA (Abs (Num 0xC096)); (* 1366 *)
  Ins iLDA (Imm (Num 0x8)); (* 1367 *)
  Ins iSTA (Abs (Num 0xC097)) (* 1368 *)
].

(** the segment LOWCODE (122, 1214, 1215, 1216, 1217, 1218, 1219, 1220, 1221, 1222, 1223, 1224, 1225, 1226, 1227, 1228, 1229) *)
Definition lowcode : list stmt :=
  lowcode_2 ++
  (op_tick 32) ++
  (op_tick 33) ++
  (op_tick 34) ++
  (op_tick 35) ++
  (op_tick 36) ++
  (op_tick_4 63) ++
  (op_tick_6 63) ++
  (op_tick_8 63) ++
  (op_tick_10 63) ++
  (op_tick_12 63) ++
  (op_tick_14 63) ++
  (op_tick_16 63) ++
  (op_tick_18 63) ++
  (op_tick_20 63) ++
  (op_tick_22 63) ++
  (op_tick_24 63).

(** the segment HGR (36, 129) *)
Definition hgr : list stmt :=
  hgr_1 ++
  hgr_3.

(** the segment CODE (314, 1232, 1233, 1234, 1235, 1236, 1237, 1238, 1239, 1240, 1241, 1242, 1243, 1244, 1245, 1246, 1247, 1248, 1249, 1250, 1251, 1252, 1253, 1254, 1255, 1256, 1257, 1259, 1260, 1261, 1262, 1263, 1264, 1265, 1266, 1267, 1268, 1269, 1270, 1271, 1272, 1273, 1274, 1275, 1276, 1277, 1278, 1279, 1281) *)
Definition code : list stmt :=
  code_4 ++
  (op_tick 37) ++
  (op_tick 38) ++
  (op_tick 39) ++
  (op_tick 40) ++
  (op_tick 41) ++
  (op_tick 42) ++
  (op_tick 43) ++
  (op_tick 44) ++
  (op_tick 45) ++
  (op_tick 46) ++
  (op_tick 47) ++
  (op_tick 48) ++
  (op_tick 49) ++
  (op_tick 50) ++
  (op_tick 51) ++
  (op_tick 52) ++
  (op_tick 53) ++
  (op_tick 54) ++
  (op_tick 55) ++
  (op_tick 56) ++
  (op_tick 57) ++
  (op_tick 58) ++
  (op_tick 59) ++
  (op_tick 60) ++
  (op_tick 61) ++
  (op_tick 62) ++
  (op_tick_26 63) ++
  (op_tick_28 63) ++
  (op_tick_30 63) ++
  (op_tick_32 63) ++
  (op_tick_34 63) ++
  (op_tick_36 63) ++
  (op_tick_38 63) ++
  (op_tick_40 63) ++
  (op_tick_42 63) ++
  (op_tick_44 63) ++
  (op_tick_46 63) ++
  (op_tick_48 63) ++
  (op_tick_50 63) ++
  (op_tick_52 63) ++
  (op_tick_54 63) ++
  (op_tick_56 63) ++
  (op_tick_58 63) ++
  (op_tick_60 63) ++
  (op_tick_62 63) ++
  (op_tick_64 63) ++
  (op_tick_66 63) ++
  code_5.

