(** Generated by tools/gen_tables.py from /repo; do not edit.
    The straight-line intrinsics program of src/sha256.rs:463-719. *)
From Verif Require Import Base ModelSimd.

(** src/sha256.rs:481-482, MASK (high, low quadword) *)
Definition simd_mask : N * N := (0x0c0d0e0f08090a0b, 0x0405060700010203).

(** src/sha256.rs:489-718 *)
Definition simd_program : list instr :=
  [ LoadH R_tmp 0  (* :489 *)
  ; LoadH R_state1 4  (* :490 *)
  ; Shuf32 R_tmp R_tmp 0xB1  (* :492 *)
  ; Shuf32 R_state1 R_state1 0x1B  (* :493 *)
  ; Alignr8 R_state0 R_tmp R_state1 8  (* :494 *)
  ; Blend16 R_state1 R_state1 R_tmp 0xF0  (* :495 *)
  ; Mov R_abef_save R_state0  (* :500 *)
  ; Mov R_cdgh_save R_state1  (* :501 *)
  ; LoadBuf R_msg 0  (* :504 *)
  ; Shuf8Mask R_msg0 R_msg  (* :505 *)
  ; AddK R_msg R_msg0 0xE9B5DBA5B5C0FBCF 0x71374491428A2F98  (* :506 *)
  ; Rnds2 R_state1 R_state1 R_state0 R_msg  (* :510 *)
  ; Shuf32 R_msg R_msg 0x0E  (* :511 *)
  ; Rnds2 R_state0 R_state0 R_state1 R_msg  (* :512 *)
  ; LoadBuf R_msg1 16  (* :515 *)
  ; Shuf8Mask R_msg1 R_msg1  (* :516 *)
  ; AddK R_msg R_msg1 0xAB1C5ED5923F82A4 0x59F111F13956C25B  (* :517 *)
  ; Rnds2 R_state1 R_state1 R_state0 R_msg  (* :521 *)
  ; Shuf32 R_msg R_msg 0x0E  (* :522 *)
  ; Rnds2 R_state0 R_state0 R_state1 R_msg  (* :523 *)
  ; Msg1 R_msg0 R_msg0 R_msg1  (* :524 *)
  ; LoadBuf R_msg2 32  (* :527 *)
  ; Shuf8Mask R_msg2 R_msg2  (* :528 *)
  ; AddK R_msg R_msg2 0x550C7DC3243185BE 0x12835B01D807AA98  (* :529 *)
  ; Rnds2 R_state1 R_state1 R_state0 R_msg  (* :533 *)
  ; Shuf32 R_msg R_msg 0x0E  (* :534 *)
  ; Rnds2 R_state0 R_state0 R_state1 R_msg  (* :535 *)
  ; Msg1 R_msg1 R_msg1 R_msg2  (* :536 *)
  ; LoadBuf R_msg3 48  (* :539 *)
  ; Shuf8Mask R_msg3 R_msg3  (* :540 *)
  ; AddK R_msg R_msg3 0xC19BF1749BDC06A7 0x80DEB1FE72BE5D74  (* :541 *)
  ; Rnds2 R_state1 R_state1 R_state0 R_msg  (* :545 *)
  ; Alignr8 R_tmp R_msg3 R_msg2 4  (* :546 *)
  ; Add32 R_msg0 R_msg0 R_tmp  (* :547 *)
  ; Msg2 R_msg0 R_msg0 R_msg3  (* :548 *)
  ; Shuf32 R_msg R_msg 0x0E  (* :549 *)
  ; Rnds2 R_state0 R_state0 R_state1 R_msg  (* :550 *)
  ; Msg1 R_msg2 R_msg2 R_msg3  (* :551 *)
  ; AddK R_msg R_msg0 0x240CA1CC0FC19DC6 0xEFBE4786E49B69C1  (* :554 *)
  ; Rnds2 R_state1 R_state1 R_state0 R_msg  (* :558 *)
  ; Alignr8 R_tmp R_msg0 R_msg3 4  (* :559 *)
  ; Add32 R_msg1 R_msg1 R_tmp  (* :560 *)
  ; Msg2 R_msg1 R_msg1 R_msg0  (* :561 *)
  ; Shuf32 R_msg R_msg 0x0E  (* :562 *)
  ; Rnds2 R_state0 R_state0 R_state1 R_msg  (* :563 *)
  ; Msg1 R_msg3 R_msg3 R_msg0  (* :564 *)
  ; AddK R_msg R_msg1 0x76F988DA5CB0A9DC 0x4A7484AA2DE92C6F  (* :567 *)
  ; Rnds2 R_state1 R_state1 R_state0 R_msg  (* :571 *)
  ; Alignr8 R_tmp R_msg1 R_msg0 4  (* :572 *)
  ; Add32 R_msg2 R_msg2 R_tmp  (* :573 *)
  ; Msg2 R_msg2 R_msg2 R_msg1  (* :574 *)
  ; Shuf32 R_msg R_msg 0x0E  (* :575 *)
  ; Rnds2 R_state0 R_state0 R_state1 R_msg  (* :576 *)
  ; Msg1 R_msg0 R_msg0 R_msg1  (* :577 *)
  ; AddK R_msg R_msg2 0xBF597FC7B00327C8 0xA831C66D983E5152  (* :580 *)
  ; Rnds2 R_state1 R_state1 R_state0 R_msg  (* :584 *)
  ; Alignr8 R_tmp R_msg2 R_msg1 4  (* :585 *)
  ; Add32 R_msg3 R_msg3 R_tmp  (* :586 *)
  ; Msg2 R_msg3 R_msg3 R_msg2  (* :587 *)
  ; Shuf32 R_msg R_msg 0x0E  (* :588 *)
  ; Rnds2 R_state0 R_state0 R_state1 R_msg  (* :589 *)
  ; Msg1 R_msg1 R_msg1 R_msg2  (* :590 *)
  ; AddK R_msg R_msg3 0x1429296706CA6351 0xD5A79147C6E00BF3  (* :593 *)
  ; Rnds2 R_state1 R_state1 R_state0 R_msg  (* :597 *)
  ; Alignr8 R_tmp R_msg3 R_msg2 4  (* :598 *)
  ; Add32 R_msg0 R_msg0 R_tmp  (* :599 *)
  ; Msg2 R_msg0 R_msg0 R_msg3  (* :600 *)
  ; Shuf32 R_msg R_msg 0x0E  (* :601 *)
  ; Rnds2 R_state0 R_state0 R_state1 R_msg  (* :602 *)
  ; Msg1 R_msg2 R_msg2 R_msg3  (* :603 *)
  ; AddK R_msg R_msg0 0x53380D134D2C6DFC 0x2E1B213827B70A85  (* :606 *)
  ; Rnds2 R_state1 R_state1 R_state0 R_msg  (* :610 *)
  ; Alignr8 R_tmp R_msg0 R_msg3 4  (* :611 *)
  ; Add32 R_msg1 R_msg1 R_tmp  (* :612 *)
  ; Msg2 R_msg1 R_msg1 R_msg0  (* :613 *)
  ; Shuf32 R_msg R_msg 0x0E  (* :614 *)
  ; Rnds2 R_state0 R_state0 R_state1 R_msg  (* :615 *)
  ; Msg1 R_msg3 R_msg3 R_msg0  (* :616 *)
  ; AddK R_msg R_msg1 0x92722C8581C2C92E 0x766A0ABB650A7354  (* :619 *)
  ; Rnds2 R_state1 R_state1 R_state0 R_msg  (* :623 *)
  ; Alignr8 R_tmp R_msg1 R_msg0 4  (* :624 *)
  ; Add32 R_msg2 R_msg2 R_tmp  (* :625 *)
  ; Msg2 R_msg2 R_msg2 R_msg1  (* :626 *)
  ; Shuf32 R_msg R_msg 0x0E  (* :627 *)
  ; Rnds2 R_state0 R_state0 R_state1 R_msg  (* :628 *)
  ; Msg1 R_msg0 R_msg0 R_msg1  (* :629 *)
  ; AddK R_msg R_msg2 0xC76C51A3C24B8B70 0xA81A664BA2BFE8A1  (* :632 *)
  ; Rnds2 R_state1 R_state1 R_state0 R_msg  (* :636 *)
  ; Alignr8 R_tmp R_msg2 R_msg1 4  (* :637 *)
  ; Add32 R_msg3 R_msg3 R_tmp  (* :638 *)
  ; Msg2 R_msg3 R_msg3 R_msg2  (* :639 *)
  ; Shuf32 R_msg R_msg 0x0E  (* :640 *)
  ; Rnds2 R_state0 R_state0 R_state1 R_msg  (* :641 *)
  ; Msg1 R_msg1 R_msg1 R_msg2  (* :642 *)
  ; AddK R_msg R_msg3 0x106AA070F40E3585 0xD6990624D192E819  (* :645 *)
  ; Rnds2 R_state1 R_state1 R_state0 R_msg  (* :649 *)
  ; Alignr8 R_tmp R_msg3 R_msg2 4  (* :650 *)
  ; Add32 R_msg0 R_msg0 R_tmp  (* :651 *)
  ; Msg2 R_msg0 R_msg0 R_msg3  (* :652 *)
  ; Shuf32 R_msg R_msg 0x0E  (* :653 *)
  ; Rnds2 R_state0 R_state0 R_state1 R_msg  (* :654 *)
  ; Msg1 R_msg2 R_msg2 R_msg3  (* :655 *)
  ; AddK R_msg R_msg0 0x34B0BCB52748774C 0x1E376C0819A4C116  (* :658 *)
  ; Rnds2 R_state1 R_state1 R_state0 R_msg  (* :662 *)
  ; Alignr8 R_tmp R_msg0 R_msg3 4  (* :663 *)
  ; Add32 R_msg1 R_msg1 R_tmp  (* :664 *)
  ; Msg2 R_msg1 R_msg1 R_msg0  (* :665 *)
  ; Shuf32 R_msg R_msg 0x0E  (* :666 *)
  ; Rnds2 R_state0 R_state0 R_state1 R_msg  (* :667 *)
  ; Msg1 R_msg3 R_msg3 R_msg0  (* :668 *)
  ; AddK R_msg R_msg1 0x682E6FF35B9CCA4F 0x4ED8AA4A391C0CB3  (* :671 *)
  ; Rnds2 R_state1 R_state1 R_state0 R_msg  (* :675 *)
  ; Alignr8 R_tmp R_msg1 R_msg0 4  (* :676 *)
  ; Add32 R_msg2 R_msg2 R_tmp  (* :677 *)
  ; Msg2 R_msg2 R_msg2 R_msg1  (* :678 *)
  ; Shuf32 R_msg R_msg 0x0E  (* :679 *)
  ; Rnds2 R_state0 R_state0 R_state1 R_msg  (* :680 *)
  ; AddK R_msg R_msg2 0x8CC7020884C87814 0x78A5636F748F82EE  (* :683 *)
  ; Rnds2 R_state1 R_state1 R_state0 R_msg  (* :687 *)
  ; Alignr8 R_tmp R_msg2 R_msg1 4  (* :688 *)
  ; Add32 R_msg3 R_msg3 R_tmp  (* :689 *)
  ; Msg2 R_msg3 R_msg3 R_msg2  (* :690 *)
  ; Shuf32 R_msg R_msg 0x0E  (* :691 *)
  ; Rnds2 R_state0 R_state0 R_state1 R_msg  (* :692 *)
  ; AddK R_msg R_msg3 0xC67178F2BEF9A3F7 0xA4506CEB90BEFFFA  (* :695 *)
  ; Rnds2 R_state1 R_state1 R_state0 R_msg  (* :699 *)
  ; Shuf32 R_msg R_msg 0x0E  (* :700 *)
  ; Rnds2 R_state0 R_state0 R_state1 R_msg  (* :701 *)
  ; Add32 R_state0 R_state0 R_abef_save  (* :704 *)
  ; Add32 R_state1 R_state1 R_cdgh_save  (* :705 *)
  ; Shuf32 R_tmp R_state0 0x1B  (* :708 *)
  ; Shuf32 R_state1 R_state1 0xB1  (* :709 *)
  ; Blend16 R_state0 R_tmp R_state1 0xF0  (* :710 *)
  ; Alignr8 R_state1 R_state1 R_tmp 8  (* :711 *)
  ; StoreH 0 R_state0  (* :716 *)
  ; StoreH 4 R_state1  (* :717 *)
  ].

