(** Generated by tools/gen_tables.py from /repo; do not edit.
    The round! invocations of the SHA-2 block functions. *)
From Verif Require Import Base ModelSha2Round.

Local Open Scope nat_scope.

(** src/sha256.rs:738-804, Engine::software_process_block *)
Definition software_rows : list round_row :=
  [ mk_row [0;1;2;3;4;5;6;7] 0x428a2f98 0 None  (* :738 *)
  ; mk_row [7;0;1;2;3;4;5;6] 0x71374491 1 None  (* :739 *)
  ; mk_row [6;7;0;1;2;3;4;5] 0xb5c0fbcf 2 None  (* :740 *)
  ; mk_row [5;6;7;0;1;2;3;4] 0xe9b5dba5 3 None  (* :741 *)
  ; mk_row [4;5;6;7;0;1;2;3] 0x3956c25b 4 None  (* :742 *)
  ; mk_row [3;4;5;6;7;0;1;2] 0x59f111f1 5 None  (* :743 *)
  ; mk_row [2;3;4;5;6;7;0;1] 0x923f82a4 6 None  (* :744 *)
  ; mk_row [1;2;3;4;5;6;7;0] 0xab1c5ed5 7 None  (* :745 *)
  ; mk_row [0;1;2;3;4;5;6;7] 0xd807aa98 8 None  (* :746 *)
  ; mk_row [7;0;1;2;3;4;5;6] 0x12835b01 9 None  (* :747 *)
  ; mk_row [6;7;0;1;2;3;4;5] 0x243185be 10 None  (* :748 *)
  ; mk_row [5;6;7;0;1;2;3;4] 0x550c7dc3 11 None  (* :749 *)
  ; mk_row [4;5;6;7;0;1;2;3] 0x72be5d74 12 None  (* :750 *)
  ; mk_row [3;4;5;6;7;0;1;2] 0x80deb1fe 13 None  (* :751 *)
  ; mk_row [2;3;4;5;6;7;0;1] 0x9bdc06a7 14 None  (* :752 *)
  ; mk_row [1;2;3;4;5;6;7;0] 0xc19bf174 15 None  (* :753 *)
  ; mk_row [0;1;2;3;4;5;6;7] 0xe49b69c1 0 (Some (14, 9, 1))  (* :755 *)
  ; mk_row [7;0;1;2;3;4;5;6] 0xefbe4786 1 (Some (15, 10, 2))  (* :756 *)
  ; mk_row [6;7;0;1;2;3;4;5] 0x0fc19dc6 2 (Some (0, 11, 3))  (* :757 *)
  ; mk_row [5;6;7;0;1;2;3;4] 0x240ca1cc 3 (Some (1, 12, 4))  (* :758 *)
  ; mk_row [4;5;6;7;0;1;2;3] 0x2de92c6f 4 (Some (2, 13, 5))  (* :759 *)
  ; mk_row [3;4;5;6;7;0;1;2] 0x4a7484aa 5 (Some (3, 14, 6))  (* :760 *)
  ; mk_row [2;3;4;5;6;7;0;1] 0x5cb0a9dc 6 (Some (4, 15, 7))  (* :761 *)
  ; mk_row [1;2;3;4;5;6;7;0] 0x76f988da 7 (Some (5, 0, 8))  (* :762 *)
  ; mk_row [0;1;2;3;4;5;6;7] 0x983e5152 8 (Some (6, 1, 9))  (* :763 *)
  ; mk_row [7;0;1;2;3;4;5;6] 0xa831c66d 9 (Some (7, 2, 10))  (* :764 *)
  ; mk_row [6;7;0;1;2;3;4;5] 0xb00327c8 10 (Some (8, 3, 11))  (* :765 *)
  ; mk_row [5;6;7;0;1;2;3;4] 0xbf597fc7 11 (Some (9, 4, 12))  (* :766 *)
  ; mk_row [4;5;6;7;0;1;2;3] 0xc6e00bf3 12 (Some (10, 5, 13))  (* :767 *)
  ; mk_row [3;4;5;6;7;0;1;2] 0xd5a79147 13 (Some (11, 6, 14))  (* :768 *)
  ; mk_row [2;3;4;5;6;7;0;1] 0x06ca6351 14 (Some (12, 7, 15))  (* :769 *)
  ; mk_row [1;2;3;4;5;6;7;0] 0x14292967 15 (Some (13, 8, 0))  (* :770 *)
  ; mk_row [0;1;2;3;4;5;6;7] 0x27b70a85 0 (Some (14, 9, 1))  (* :772 *)
  ; mk_row [7;0;1;2;3;4;5;6] 0x2e1b2138 1 (Some (15, 10, 2))  (* :773 *)
  ; mk_row [6;7;0;1;2;3;4;5] 0x4d2c6dfc 2 (Some (0, 11, 3))  (* :774 *)
  ; mk_row [5;6;7;0;1;2;3;4] 0x53380d13 3 (Some (1, 12, 4))  (* :775 *)
  ; mk_row [4;5;6;7;0;1;2;3] 0x650a7354 4 (Some (2, 13, 5))  (* :776 *)
  ; mk_row [3;4;5;6;7;0;1;2] 0x766a0abb 5 (Some (3, 14, 6))  (* :777 *)
  ; mk_row [2;3;4;5;6;7;0;1] 0x81c2c92e 6 (Some (4, 15, 7))  (* :778 *)
  ; mk_row [1;2;3;4;5;6;7;0] 0x92722c85 7 (Some (5, 0, 8))  (* :779 *)
  ; mk_row [0;1;2;3;4;5;6;7] 0xa2bfe8a1 8 (Some (6, 1, 9))  (* :780 *)
  ; mk_row [7;0;1;2;3;4;5;6] 0xa81a664b 9 (Some (7, 2, 10))  (* :781 *)
  ; mk_row [6;7;0;1;2;3;4;5] 0xc24b8b70 10 (Some (8, 3, 11))  (* :782 *)
  ; mk_row [5;6;7;0;1;2;3;4] 0xc76c51a3 11 (Some (9, 4, 12))  (* :783 *)
  ; mk_row [4;5;6;7;0;1;2;3] 0xd192e819 12 (Some (10, 5, 13))  (* :784 *)
  ; mk_row [3;4;5;6;7;0;1;2] 0xd6990624 13 (Some (11, 6, 14))  (* :785 *)
  ; mk_row [2;3;4;5;6;7;0;1] 0xf40e3585 14 (Some (12, 7, 15))  (* :786 *)
  ; mk_row [1;2;3;4;5;6;7;0] 0x106aa070 15 (Some (13, 8, 0))  (* :787 *)
  ; mk_row [0;1;2;3;4;5;6;7] 0x19a4c116 0 (Some (14, 9, 1))  (* :789 *)
  ; mk_row [7;0;1;2;3;4;5;6] 0x1e376c08 1 (Some (15, 10, 2))  (* :790 *)
  ; mk_row [6;7;0;1;2;3;4;5] 0x2748774c 2 (Some (0, 11, 3))  (* :791 *)
  ; mk_row [5;6;7;0;1;2;3;4] 0x34b0bcb5 3 (Some (1, 12, 4))  (* :792 *)
  ; mk_row [4;5;6;7;0;1;2;3] 0x391c0cb3 4 (Some (2, 13, 5))  (* :793 *)
  ; mk_row [3;4;5;6;7;0;1;2] 0x4ed8aa4a 5 (Some (3, 14, 6))  (* :794 *)
  ; mk_row [2;3;4;5;6;7;0;1] 0x5b9cca4f 6 (Some (4, 15, 7))  (* :795 *)
  ; mk_row [1;2;3;4;5;6;7;0] 0x682e6ff3 7 (Some (5, 0, 8))  (* :796 *)
  ; mk_row [0;1;2;3;4;5;6;7] 0x748f82ee 8 (Some (6, 1, 9))  (* :797 *)
  ; mk_row [7;0;1;2;3;4;5;6] 0x78a5636f 9 (Some (7, 2, 10))  (* :798 *)
  ; mk_row [6;7;0;1;2;3;4;5] 0x84c87814 10 (Some (8, 3, 11))  (* :799 *)
  ; mk_row [5;6;7;0;1;2;3;4] 0x8cc70208 11 (Some (9, 4, 12))  (* :800 *)
  ; mk_row [4;5;6;7;0;1;2;3] 0x90befffa 12 (Some (10, 5, 13))  (* :801 *)
  ; mk_row [3;4;5;6;7;0;1;2] 0xa4506ceb 13 (Some (11, 6, 14))  (* :802 *)
  ; mk_row [2;3;4;5;6;7;0;1] 0xbef9a3f7 14 (Some (12, 7, 15))  (* :803 *)
  ; mk_row [1;2;3;4;5;6;7;0] 0xc67178f2 15 (Some (13, 8, 0))  (* :804 *)
  ].

(** src/sha256.rs:337-403, Midstate::const_hash *)
Definition const_rows : list round_row :=
  [ mk_row [0;1;2;3;4;5;6;7] 0x428a2f98 0 None  (* :337 *)
  ; mk_row [7;0;1;2;3;4;5;6] 0x71374491 1 None  (* :338 *)
  ; mk_row [6;7;0;1;2;3;4;5] 0xb5c0fbcf 2 None  (* :339 *)
  ; mk_row [5;6;7;0;1;2;3;4] 0xe9b5dba5 3 None  (* :340 *)
  ; mk_row [4;5;6;7;0;1;2;3] 0x3956c25b 4 None  (* :341 *)
  ; mk_row [3;4;5;6;7;0;1;2] 0x59f111f1 5 None  (* :342 *)
  ; mk_row [2;3;4;5;6;7;0;1] 0x923f82a4 6 None  (* :343 *)
  ; mk_row [1;2;3;4;5;6;7;0] 0xab1c5ed5 7 None  (* :344 *)
  ; mk_row [0;1;2;3;4;5;6;7] 0xd807aa98 8 None  (* :345 *)
  ; mk_row [7;0;1;2;3;4;5;6] 0x12835b01 9 None  (* :346 *)
  ; mk_row [6;7;0;1;2;3;4;5] 0x243185be 10 None  (* :347 *)
  ; mk_row [5;6;7;0;1;2;3;4] 0x550c7dc3 11 None  (* :348 *)
  ; mk_row [4;5;6;7;0;1;2;3] 0x72be5d74 12 None  (* :349 *)
  ; mk_row [3;4;5;6;7;0;1;2] 0x80deb1fe 13 None  (* :350 *)
  ; mk_row [2;3;4;5;6;7;0;1] 0x9bdc06a7 14 None  (* :351 *)
  ; mk_row [1;2;3;4;5;6;7;0] 0xc19bf174 15 None  (* :352 *)
  ; mk_row [0;1;2;3;4;5;6;7] 0xe49b69c1 0 (Some (14, 9, 1))  (* :354 *)
  ; mk_row [7;0;1;2;3;4;5;6] 0xefbe4786 1 (Some (15, 10, 2))  (* :355 *)
  ; mk_row [6;7;0;1;2;3;4;5] 0x0fc19dc6 2 (Some (0, 11, 3))  (* :356 *)
  ; mk_row [5;6;7;0;1;2;3;4] 0x240ca1cc 3 (Some (1, 12, 4))  (* :357 *)
  ; mk_row [4;5;6;7;0;1;2;3] 0x2de92c6f 4 (Some (2, 13, 5))  (* :358 *)
  ; mk_row [3;4;5;6;7;0;1;2] 0x4a7484aa 5 (Some (3, 14, 6))  (* :359 *)
  ; mk_row [2;3;4;5;6;7;0;1] 0x5cb0a9dc 6 (Some (4, 15, 7))  (* :360 *)
  ; mk_row [1;2;3;4;5;6;7;0] 0x76f988da 7 (Some (5, 0, 8))  (* :361 *)
  ; mk_row [0;1;2;3;4;5;6;7] 0x983e5152 8 (Some (6, 1, 9))  (* :362 *)
  ; mk_row [7;0;1;2;3;4;5;6] 0xa831c66d 9 (Some (7, 2, 10))  (* :363 *)
  ; mk_row [6;7;0;1;2;3;4;5] 0xb00327c8 10 (Some (8, 3, 11))  (* :364 *)
  ; mk_row [5;6;7;0;1;2;3;4] 0xbf597fc7 11 (Some (9, 4, 12))  (* :365 *)
  ; mk_row [4;5;6;7;0;1;2;3] 0xc6e00bf3 12 (Some (10, 5, 13))  (* :366 *)
  ; mk_row [3;4;5;6;7;0;1;2] 0xd5a79147 13 (Some (11, 6, 14))  (* :367 *)
  ; mk_row [2;3;4;5;6;7;0;1] 0x06ca6351 14 (Some (12, 7, 15))  (* :368 *)
  ; mk_row [1;2;3;4;5;6;7;0] 0x14292967 15 (Some (13, 8, 0))  (* :369 *)
  ; mk_row [0;1;2;3;4;5;6;7] 0x27b70a85 0 (Some (14, 9, 1))  (* :371 *)
  ; mk_row [7;0;1;2;3;4;5;6] 0x2e1b2138 1 (Some (15, 10, 2))  (* :372 *)
  ; mk_row [6;7;0;1;2;3;4;5] 0x4d2c6dfc 2 (Some (0, 11, 3))  (* :373 *)
  ; mk_row [5;6;7;0;1;2;3;4] 0x53380d13 3 (Some (1, 12, 4))  (* :374 *)
  ; mk_row [4;5;6;7;0;1;2;3] 0x650a7354 4 (Some (2, 13, 5))  (* :375 *)
  ; mk_row [3;4;5;6;7;0;1;2] 0x766a0abb 5 (Some (3, 14, 6))  (* :376 *)
  ; mk_row [2;3;4;5;6;7;0;1] 0x81c2c92e 6 (Some (4, 15, 7))  (* :377 *)
  ; mk_row [1;2;3;4;5;6;7;0] 0x92722c85 7 (Some (5, 0, 8))  (* :378 *)
  ; mk_row [0;1;2;3;4;5;6;7] 0xa2bfe8a1 8 (Some (6, 1, 9))  (* :379 *)
  ; mk_row [7;0;1;2;3;4;5;6] 0xa81a664b 9 (Some (7, 2, 10))  (* :380 *)
  ; mk_row [6;7;0;1;2;3;4;5] 0xc24b8b70 10 (Some (8, 3, 11))  (* :381 *)
  ; mk_row [5;6;7;0;1;2;3;4] 0xc76c51a3 11 (Some (9, 4, 12))  (* :382 *)
  ; mk_row [4;5;6;7;0;1;2;3] 0xd192e819 12 (Some (10, 5, 13))  (* :383 *)
  ; mk_row [3;4;5;6;7;0;1;2] 0xd6990624 13 (Some (11, 6, 14))  (* :384 *)
  ; mk_row [2;3;4;5;6;7;0;1] 0xf40e3585 14 (Some (12, 7, 15))  (* :385 *)
  ; mk_row [1;2;3;4;5;6;7;0] 0x106aa070 15 (Some (13, 8, 0))  (* :386 *)
  ; mk_row [0;1;2;3;4;5;6;7] 0x19a4c116 0 (Some (14, 9, 1))  (* :388 *)
  ; mk_row [7;0;1;2;3;4;5;6] 0x1e376c08 1 (Some (15, 10, 2))  (* :389 *)
  ; mk_row [6;7;0;1;2;3;4;5] 0x2748774c 2 (Some (0, 11, 3))  (* :390 *)
  ; mk_row [5;6;7;0;1;2;3;4] 0x34b0bcb5 3 (Some (1, 12, 4))  (* :391 *)
  ; mk_row [4;5;6;7;0;1;2;3] 0x391c0cb3 4 (Some (2, 13, 5))  (* :392 *)
  ; mk_row [3;4;5;6;7;0;1;2] 0x4ed8aa4a 5 (Some (3, 14, 6))  (* :393 *)
  ; mk_row [2;3;4;5;6;7;0;1] 0x5b9cca4f 6 (Some (4, 15, 7))  (* :394 *)
  ; mk_row [1;2;3;4;5;6;7;0] 0x682e6ff3 7 (Some (5, 0, 8))  (* :395 *)
  ; mk_row [0;1;2;3;4;5;6;7] 0x748f82ee 8 (Some (6, 1, 9))  (* :396 *)
  ; mk_row [7;0;1;2;3;4;5;6] 0x78a5636f 9 (Some (7, 2, 10))  (* :397 *)
  ; mk_row [6;7;0;1;2;3;4;5] 0x84c87814 10 (Some (8, 3, 11))  (* :398 *)
  ; mk_row [5;6;7;0;1;2;3;4] 0x8cc70208 11 (Some (9, 4, 12))  (* :399 *)
  ; mk_row [4;5;6;7;0;1;2;3] 0x90befffa 12 (Some (10, 5, 13))  (* :400 *)
  ; mk_row [3;4;5;6;7;0;1;2] 0xa4506ceb 13 (Some (11, 6, 14))  (* :401 *)
  ; mk_row [2;3;4;5;6;7;0;1] 0xbef9a3f7 14 (Some (12, 7, 15))  (* :402 *)
  ; mk_row [1;2;3;4;5;6;7;0] 0xc67178f2 15 (Some (13, 8, 0))  (* :403 *)
  ].

(** src/sha512.rs:221-304, Engine::process_block *)
Definition sha512_rows : list round_row :=
  [ mk_row [0;1;2;3;4;5;6;7] 0x428a2f98d728ae22 0 None  (* :221 *)
  ; mk_row [7;0;1;2;3;4;5;6] 0x7137449123ef65cd 1 None  (* :222 *)
  ; mk_row [6;7;0;1;2;3;4;5] 0xb5c0fbcfec4d3b2f 2 None  (* :223 *)
  ; mk_row [5;6;7;0;1;2;3;4] 0xe9b5dba58189dbbc 3 None  (* :224 *)
  ; mk_row [4;5;6;7;0;1;2;3] 0x3956c25bf348b538 4 None  (* :225 *)
  ; mk_row [3;4;5;6;7;0;1;2] 0x59f111f1b605d019 5 None  (* :226 *)
  ; mk_row [2;3;4;5;6;7;0;1] 0x923f82a4af194f9b 6 None  (* :227 *)
  ; mk_row [1;2;3;4;5;6;7;0] 0xab1c5ed5da6d8118 7 None  (* :228 *)
  ; mk_row [0;1;2;3;4;5;6;7] 0xd807aa98a3030242 8 None  (* :229 *)
  ; mk_row [7;0;1;2;3;4;5;6] 0x12835b0145706fbe 9 None  (* :230 *)
  ; mk_row [6;7;0;1;2;3;4;5] 0x243185be4ee4b28c 10 None  (* :231 *)
  ; mk_row [5;6;7;0;1;2;3;4] 0x550c7dc3d5ffb4e2 11 None  (* :232 *)
  ; mk_row [4;5;6;7;0;1;2;3] 0x72be5d74f27b896f 12 None  (* :233 *)
  ; mk_row [3;4;5;6;7;0;1;2] 0x80deb1fe3b1696b1 13 None  (* :234 *)
  ; mk_row [2;3;4;5;6;7;0;1] 0x9bdc06a725c71235 14 None  (* :235 *)
  ; mk_row [1;2;3;4;5;6;7;0] 0xc19bf174cf692694 15 None  (* :236 *)
  ; mk_row [0;1;2;3;4;5;6;7] 0xe49b69c19ef14ad2 0 (Some (14, 9, 1))  (* :238 *)
  ; mk_row [7;0;1;2;3;4;5;6] 0xefbe4786384f25e3 1 (Some (15, 10, 2))  (* :239 *)
  ; mk_row [6;7;0;1;2;3;4;5] 0x0fc19dc68b8cd5b5 2 (Some (0, 11, 3))  (* :240 *)
  ; mk_row [5;6;7;0;1;2;3;4] 0x240ca1cc77ac9c65 3 (Some (1, 12, 4))  (* :241 *)
  ; mk_row [4;5;6;7;0;1;2;3] 0x2de92c6f592b0275 4 (Some (2, 13, 5))  (* :242 *)
  ; mk_row [3;4;5;6;7;0;1;2] 0x4a7484aa6ea6e483 5 (Some (3, 14, 6))  (* :243 *)
  ; mk_row [2;3;4;5;6;7;0;1] 0x5cb0a9dcbd41fbd4 6 (Some (4, 15, 7))  (* :244 *)
  ; mk_row [1;2;3;4;5;6;7;0] 0x76f988da831153b5 7 (Some (5, 0, 8))  (* :245 *)
  ; mk_row [0;1;2;3;4;5;6;7] 0x983e5152ee66dfab 8 (Some (6, 1, 9))  (* :246 *)
  ; mk_row [7;0;1;2;3;4;5;6] 0xa831c66d2db43210 9 (Some (7, 2, 10))  (* :247 *)
  ; mk_row [6;7;0;1;2;3;4;5] 0xb00327c898fb213f 10 (Some (8, 3, 11))  (* :248 *)
  ; mk_row [5;6;7;0;1;2;3;4] 0xbf597fc7beef0ee4 11 (Some (9, 4, 12))  (* :249 *)
  ; mk_row [4;5;6;7;0;1;2;3] 0xc6e00bf33da88fc2 12 (Some (10, 5, 13))  (* :250 *)
  ; mk_row [3;4;5;6;7;0;1;2] 0xd5a79147930aa725 13 (Some (11, 6, 14))  (* :251 *)
  ; mk_row [2;3;4;5;6;7;0;1] 0x06ca6351e003826f 14 (Some (12, 7, 15))  (* :252 *)
  ; mk_row [1;2;3;4;5;6;7;0] 0x142929670a0e6e70 15 (Some (13, 8, 0))  (* :253 *)
  ; mk_row [0;1;2;3;4;5;6;7] 0x27b70a8546d22ffc 0 (Some (14, 9, 1))  (* :255 *)
  ; mk_row [7;0;1;2;3;4;5;6] 0x2e1b21385c26c926 1 (Some (15, 10, 2))  (* :256 *)
  ; mk_row [6;7;0;1;2;3;4;5] 0x4d2c6dfc5ac42aed 2 (Some (0, 11, 3))  (* :257 *)
  ; mk_row [5;6;7;0;1;2;3;4] 0x53380d139d95b3df 3 (Some (1, 12, 4))  (* :258 *)
  ; mk_row [4;5;6;7;0;1;2;3] 0x650a73548baf63de 4 (Some (2, 13, 5))  (* :259 *)
  ; mk_row [3;4;5;6;7;0;1;2] 0x766a0abb3c77b2a8 5 (Some (3, 14, 6))  (* :260 *)
  ; mk_row [2;3;4;5;6;7;0;1] 0x81c2c92e47edaee6 6 (Some (4, 15, 7))  (* :261 *)
  ; mk_row [1;2;3;4;5;6;7;0] 0x92722c851482353b 7 (Some (5, 0, 8))  (* :262 *)
  ; mk_row [0;1;2;3;4;5;6;7] 0xa2bfe8a14cf10364 8 (Some (6, 1, 9))  (* :263 *)
  ; mk_row [7;0;1;2;3;4;5;6] 0xa81a664bbc423001 9 (Some (7, 2, 10))  (* :264 *)
  ; mk_row [6;7;0;1;2;3;4;5] 0xc24b8b70d0f89791 10 (Some (8, 3, 11))  (* :265 *)
  ; mk_row [5;6;7;0;1;2;3;4] 0xc76c51a30654be30 11 (Some (9, 4, 12))  (* :266 *)
  ; mk_row [4;5;6;7;0;1;2;3] 0xd192e819d6ef5218 12 (Some (10, 5, 13))  (* :267 *)
  ; mk_row [3;4;5;6;7;0;1;2] 0xd69906245565a910 13 (Some (11, 6, 14))  (* :268 *)
  ; mk_row [2;3;4;5;6;7;0;1] 0xf40e35855771202a 14 (Some (12, 7, 15))  (* :269 *)
  ; mk_row [1;2;3;4;5;6;7;0] 0x106aa07032bbd1b8 15 (Some (13, 8, 0))  (* :270 *)
  ; mk_row [0;1;2;3;4;5;6;7] 0x19a4c116b8d2d0c8 0 (Some (14, 9, 1))  (* :272 *)
  ; mk_row [7;0;1;2;3;4;5;6] 0x1e376c085141ab53 1 (Some (15, 10, 2))  (* :273 *)
  ; mk_row [6;7;0;1;2;3;4;5] 0x2748774cdf8eeb99 2 (Some (0, 11, 3))  (* :274 *)
  ; mk_row [5;6;7;0;1;2;3;4] 0x34b0bcb5e19b48a8 3 (Some (1, 12, 4))  (* :275 *)
  ; mk_row [4;5;6;7;0;1;2;3] 0x391c0cb3c5c95a63 4 (Some (2, 13, 5))  (* :276 *)
  ; mk_row [3;4;5;6;7;0;1;2] 0x4ed8aa4ae3418acb 5 (Some (3, 14, 6))  (* :277 *)
  ; mk_row [2;3;4;5;6;7;0;1] 0x5b9cca4f7763e373 6 (Some (4, 15, 7))  (* :278 *)
  ; mk_row [1;2;3;4;5;6;7;0] 0x682e6ff3d6b2b8a3 7 (Some (5, 0, 8))  (* :279 *)
  ; mk_row [0;1;2;3;4;5;6;7] 0x748f82ee5defb2fc 8 (Some (6, 1, 9))  (* :280 *)
  ; mk_row [7;0;1;2;3;4;5;6] 0x78a5636f43172f60 9 (Some (7, 2, 10))  (* :281 *)
  ; mk_row [6;7;0;1;2;3;4;5] 0x84c87814a1f0ab72 10 (Some (8, 3, 11))  (* :282 *)
  ; mk_row [5;6;7;0;1;2;3;4] 0x8cc702081a6439ec 11 (Some (9, 4, 12))  (* :283 *)
  ; mk_row [4;5;6;7;0;1;2;3] 0x90befffa23631e28 12 (Some (10, 5, 13))  (* :284 *)
  ; mk_row [3;4;5;6;7;0;1;2] 0xa4506cebde82bde9 13 (Some (11, 6, 14))  (* :285 *)
  ; mk_row [2;3;4;5;6;7;0;1] 0xbef9a3f7b2c67915 14 (Some (12, 7, 15))  (* :286 *)
  ; mk_row [1;2;3;4;5;6;7;0] 0xc67178f2e372532b 15 (Some (13, 8, 0))  (* :287 *)
  ; mk_row [0;1;2;3;4;5;6;7] 0xca273eceea26619c 0 (Some (14, 9, 1))  (* :289 *)
  ; mk_row [7;0;1;2;3;4;5;6] 0xd186b8c721c0c207 1 (Some (15, 10, 2))  (* :290 *)
  ; mk_row [6;7;0;1;2;3;4;5] 0xeada7dd6cde0eb1e 2 (Some (0, 11, 3))  (* :291 *)
  ; mk_row [5;6;7;0;1;2;3;4] 0xf57d4f7fee6ed178 3 (Some (1, 12, 4))  (* :292 *)
  ; mk_row [4;5;6;7;0;1;2;3] 0x06f067aa72176fba 4 (Some (2, 13, 5))  (* :293 *)
  ; mk_row [3;4;5;6;7;0;1;2] 0x0a637dc5a2c898a6 5 (Some (3, 14, 6))  (* :294 *)
  ; mk_row [2;3;4;5;6;7;0;1] 0x113f9804bef90dae 6 (Some (4, 15, 7))  (* :295 *)
  ; mk_row [1;2;3;4;5;6;7;0] 0x1b710b35131c471b 7 (Some (5, 0, 8))  (* :296 *)
  ; mk_row [0;1;2;3;4;5;6;7] 0x28db77f523047d84 8 (Some (6, 1, 9))  (* :297 *)
  ; mk_row [7;0;1;2;3;4;5;6] 0x32caab7b40c72493 9 (Some (7, 2, 10))  (* :298 *)
  ; mk_row [6;7;0;1;2;3;4;5] 0x3c9ebe0a15c9bebc 10 (Some (8, 3, 11))  (* :299 *)
  ; mk_row [5;6;7;0;1;2;3;4] 0x431d67c49c100d4c 11 (Some (9, 4, 12))  (* :300 *)
  ; mk_row [4;5;6;7;0;1;2;3] 0x4cc5d4becb3e42b6 12 (Some (10, 5, 13))  (* :301 *)
  ; mk_row [3;4;5;6;7;0;1;2] 0x597f299cfc657e2a 13 (Some (11, 6, 14))  (* :302 *)
  ; mk_row [2;3;4;5;6;7;0;1] 0x5fcb6fab3ad6faec 14 (Some (12, 7, 15))  (* :303 *)
  ; mk_row [1;2;3;4;5;6;7;0] 0x6c44198c4a475817 15 (Some (13, 8, 0))  (* :304 *)
  ].

