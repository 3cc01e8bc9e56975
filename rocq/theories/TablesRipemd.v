(** Generated by tools/gen_tables.py from /repo; do not edit.
    The argument list of the process_block! invocation. *)
From Verif Require Import Base ModelRipemdRound.

Local Open Scope nat_scope.

(** src/ripemd160.rs:238-322, round1..round5 *)
Definition left_rows : list ripemd_row :=
  [ mk_rrow 1 [0;1;2;3;4] 0 11  (* :238 *)
  ; mk_rrow 1 [4;0;1;2;3] 1 14  (* :239 *)
  ; mk_rrow 1 [3;4;0;1;2] 2 15  (* :240 *)
  ; mk_rrow 1 [2;3;4;0;1] 3 12  (* :241 *)
  ; mk_rrow 1 [1;2;3;4;0] 4 5  (* :242 *)
  ; mk_rrow 1 [0;1;2;3;4] 5 8  (* :243 *)
  ; mk_rrow 1 [4;0;1;2;3] 6 7  (* :244 *)
  ; mk_rrow 1 [3;4;0;1;2] 7 9  (* :245 *)
  ; mk_rrow 1 [2;3;4;0;1] 8 11  (* :246 *)
  ; mk_rrow 1 [1;2;3;4;0] 9 13  (* :247 *)
  ; mk_rrow 1 [0;1;2;3;4] 10 14  (* :248 *)
  ; mk_rrow 1 [4;0;1;2;3] 11 15  (* :249 *)
  ; mk_rrow 1 [3;4;0;1;2] 12 6  (* :250 *)
  ; mk_rrow 1 [2;3;4;0;1] 13 7  (* :251 *)
  ; mk_rrow 1 [1;2;3;4;0] 14 9  (* :252 *)
  ; mk_rrow 1 [0;1;2;3;4] 15 8  (* :253 *)
  ; mk_rrow 2 [4;0;1;2;3] 7 7  (* :256 *)
  ; mk_rrow 2 [3;4;0;1;2] 4 6  (* :257 *)
  ; mk_rrow 2 [2;3;4;0;1] 13 8  (* :258 *)
  ; mk_rrow 2 [1;2;3;4;0] 1 13  (* :259 *)
  ; mk_rrow 2 [0;1;2;3;4] 10 11  (* :260 *)
  ; mk_rrow 2 [4;0;1;2;3] 6 9  (* :261 *)
  ; mk_rrow 2 [3;4;0;1;2] 15 7  (* :262 *)
  ; mk_rrow 2 [2;3;4;0;1] 3 15  (* :263 *)
  ; mk_rrow 2 [1;2;3;4;0] 12 7  (* :264 *)
  ; mk_rrow 2 [0;1;2;3;4] 0 12  (* :265 *)
  ; mk_rrow 2 [4;0;1;2;3] 9 15  (* :266 *)
  ; mk_rrow 2 [3;4;0;1;2] 5 9  (* :267 *)
  ; mk_rrow 2 [2;3;4;0;1] 2 11  (* :268 *)
  ; mk_rrow 2 [1;2;3;4;0] 14 7  (* :269 *)
  ; mk_rrow 2 [0;1;2;3;4] 11 13  (* :270 *)
  ; mk_rrow 2 [4;0;1;2;3] 8 12  (* :271 *)
  ; mk_rrow 3 [3;4;0;1;2] 3 11  (* :274 *)
  ; mk_rrow 3 [2;3;4;0;1] 10 13  (* :275 *)
  ; mk_rrow 3 [1;2;3;4;0] 14 6  (* :276 *)
  ; mk_rrow 3 [0;1;2;3;4] 4 7  (* :277 *)
  ; mk_rrow 3 [4;0;1;2;3] 9 14  (* :278 *)
  ; mk_rrow 3 [3;4;0;1;2] 15 9  (* :279 *)
  ; mk_rrow 3 [2;3;4;0;1] 8 13  (* :280 *)
  ; mk_rrow 3 [1;2;3;4;0] 1 15  (* :281 *)
  ; mk_rrow 3 [0;1;2;3;4] 2 14  (* :282 *)
  ; mk_rrow 3 [4;0;1;2;3] 7 8  (* :283 *)
  ; mk_rrow 3 [3;4;0;1;2] 0 13  (* :284 *)
  ; mk_rrow 3 [2;3;4;0;1] 6 6  (* :285 *)
  ; mk_rrow 3 [1;2;3;4;0] 13 5  (* :286 *)
  ; mk_rrow 3 [0;1;2;3;4] 11 12  (* :287 *)
  ; mk_rrow 3 [4;0;1;2;3] 5 7  (* :288 *)
  ; mk_rrow 3 [3;4;0;1;2] 12 5  (* :289 *)
  ; mk_rrow 4 [2;3;4;0;1] 1 11  (* :292 *)
  ; mk_rrow 4 [1;2;3;4;0] 9 12  (* :293 *)
  ; mk_rrow 4 [0;1;2;3;4] 11 14  (* :294 *)
  ; mk_rrow 4 [4;0;1;2;3] 10 15  (* :295 *)
  ; mk_rrow 4 [3;4;0;1;2] 0 14  (* :296 *)
  ; mk_rrow 4 [2;3;4;0;1] 8 15  (* :297 *)
  ; mk_rrow 4 [1;2;3;4;0] 12 9  (* :298 *)
  ; mk_rrow 4 [0;1;2;3;4] 4 8  (* :299 *)
  ; mk_rrow 4 [4;0;1;2;3] 13 9  (* :300 *)
  ; mk_rrow 4 [3;4;0;1;2] 3 14  (* :301 *)
  ; mk_rrow 4 [2;3;4;0;1] 7 5  (* :302 *)
  ; mk_rrow 4 [1;2;3;4;0] 15 6  (* :303 *)
  ; mk_rrow 4 [0;1;2;3;4] 14 8  (* :304 *)
  ; mk_rrow 4 [4;0;1;2;3] 5 6  (* :305 *)
  ; mk_rrow 4 [3;4;0;1;2] 6 5  (* :306 *)
  ; mk_rrow 4 [2;3;4;0;1] 2 12  (* :307 *)
  ; mk_rrow 5 [1;2;3;4;0] 4 9  (* :310 *)
  ; mk_rrow 5 [0;1;2;3;4] 0 15  (* :311 *)
  ; mk_rrow 5 [4;0;1;2;3] 5 5  (* :312 *)
  ; mk_rrow 5 [3;4;0;1;2] 9 11  (* :313 *)
  ; mk_rrow 5 [2;3;4;0;1] 7 6  (* :314 *)
  ; mk_rrow 5 [1;2;3;4;0] 12 8  (* :315 *)
  ; mk_rrow 5 [0;1;2;3;4] 2 13  (* :316 *)
  ; mk_rrow 5 [4;0;1;2;3] 10 12  (* :317 *)
  ; mk_rrow 5 [3;4;0;1;2] 14 5  (* :318 *)
  ; mk_rrow 5 [2;3;4;0;1] 1 12  (* :319 *)
  ; mk_rrow 5 [1;2;3;4;0] 3 13  (* :320 *)
  ; mk_rrow 5 [0;1;2;3;4] 8 14  (* :321 *)
  ; mk_rrow 5 [4;0;1;2;3] 11 11  (* :322 *)
  ; mk_rrow 5 [3;4;0;1;2] 6 8  (* :323 *)
  ; mk_rrow 5 [2;3;4;0;1] 15 5  (* :324 *)
  ; mk_rrow 5 [1;2;3;4;0] 13 6  (* :325 *)
  ].

(** src/ripemd160.rs:325-415, par_round1..par_round5 *)
Definition right_rows : list ripemd_row :=
  [ mk_rrow 1 [0;1;2;3;4] 5 8  (* :328 *)
  ; mk_rrow 1 [4;0;1;2;3] 14 9  (* :329 *)
  ; mk_rrow 1 [3;4;0;1;2] 7 9  (* :330 *)
  ; mk_rrow 1 [2;3;4;0;1] 0 11  (* :331 *)
  ; mk_rrow 1 [1;2;3;4;0] 9 13  (* :332 *)
  ; mk_rrow 1 [0;1;2;3;4] 2 15  (* :333 *)
  ; mk_rrow 1 [4;0;1;2;3] 11 15  (* :334 *)
  ; mk_rrow 1 [3;4;0;1;2] 4 5  (* :335 *)
  ; mk_rrow 1 [2;3;4;0;1] 13 7  (* :336 *)
  ; mk_rrow 1 [1;2;3;4;0] 6 7  (* :337 *)
  ; mk_rrow 1 [0;1;2;3;4] 15 8  (* :338 *)
  ; mk_rrow 1 [4;0;1;2;3] 8 11  (* :339 *)
  ; mk_rrow 1 [3;4;0;1;2] 1 14  (* :340 *)
  ; mk_rrow 1 [2;3;4;0;1] 10 14  (* :341 *)
  ; mk_rrow 1 [1;2;3;4;0] 3 12  (* :342 *)
  ; mk_rrow 1 [0;1;2;3;4] 12 6  (* :343 *)
  ; mk_rrow 2 [4;0;1;2;3] 6 9  (* :346 *)
  ; mk_rrow 2 [3;4;0;1;2] 11 13  (* :347 *)
  ; mk_rrow 2 [2;3;4;0;1] 3 15  (* :348 *)
  ; mk_rrow 2 [1;2;3;4;0] 7 7  (* :349 *)
  ; mk_rrow 2 [0;1;2;3;4] 0 12  (* :350 *)
  ; mk_rrow 2 [4;0;1;2;3] 13 8  (* :351 *)
  ; mk_rrow 2 [3;4;0;1;2] 5 9  (* :352 *)
  ; mk_rrow 2 [2;3;4;0;1] 10 11  (* :353 *)
  ; mk_rrow 2 [1;2;3;4;0] 14 7  (* :354 *)
  ; mk_rrow 2 [0;1;2;3;4] 15 7  (* :355 *)
  ; mk_rrow 2 [4;0;1;2;3] 8 12  (* :356 *)
  ; mk_rrow 2 [3;4;0;1;2] 12 7  (* :357 *)
  ; mk_rrow 2 [2;3;4;0;1] 4 6  (* :358 *)
  ; mk_rrow 2 [1;2;3;4;0] 9 15  (* :359 *)
  ; mk_rrow 2 [0;1;2;3;4] 1 13  (* :360 *)
  ; mk_rrow 2 [4;0;1;2;3] 2 11  (* :361 *)
  ; mk_rrow 3 [3;4;0;1;2] 15 9  (* :364 *)
  ; mk_rrow 3 [2;3;4;0;1] 5 7  (* :365 *)
  ; mk_rrow 3 [1;2;3;4;0] 1 15  (* :366 *)
  ; mk_rrow 3 [0;1;2;3;4] 3 11  (* :367 *)
  ; mk_rrow 3 [4;0;1;2;3] 7 8  (* :368 *)
  ; mk_rrow 3 [3;4;0;1;2] 14 6  (* :369 *)
  ; mk_rrow 3 [2;3;4;0;1] 6 6  (* :370 *)
  ; mk_rrow 3 [1;2;3;4;0] 9 14  (* :371 *)
  ; mk_rrow 3 [0;1;2;3;4] 11 12  (* :372 *)
  ; mk_rrow 3 [4;0;1;2;3] 8 13  (* :373 *)
  ; mk_rrow 3 [3;4;0;1;2] 12 5  (* :374 *)
  ; mk_rrow 3 [2;3;4;0;1] 2 14  (* :375 *)
  ; mk_rrow 3 [1;2;3;4;0] 10 13  (* :376 *)
  ; mk_rrow 3 [0;1;2;3;4] 0 13  (* :377 *)
  ; mk_rrow 3 [4;0;1;2;3] 4 7  (* :378 *)
  ; mk_rrow 3 [3;4;0;1;2] 13 5  (* :379 *)
  ; mk_rrow 4 [2;3;4;0;1] 8 15  (* :382 *)
  ; mk_rrow 4 [1;2;3;4;0] 6 5  (* :383 *)
  ; mk_rrow 4 [0;1;2;3;4] 4 8  (* :384 *)
  ; mk_rrow 4 [4;0;1;2;3] 1 11  (* :385 *)
  ; mk_rrow 4 [3;4;0;1;2] 3 14  (* :386 *)
  ; mk_rrow 4 [2;3;4;0;1] 11 14  (* :387 *)
  ; mk_rrow 4 [1;2;3;4;0] 15 6  (* :388 *)
  ; mk_rrow 4 [0;1;2;3;4] 0 14  (* :389 *)
  ; mk_rrow 4 [4;0;1;2;3] 5 6  (* :390 *)
  ; mk_rrow 4 [3;4;0;1;2] 12 9  (* :391 *)
  ; mk_rrow 4 [2;3;4;0;1] 2 12  (* :392 *)
  ; mk_rrow 4 [1;2;3;4;0] 13 9  (* :393 *)
  ; mk_rrow 4 [0;1;2;3;4] 9 12  (* :394 *)
  ; mk_rrow 4 [4;0;1;2;3] 7 5  (* :395 *)
  ; mk_rrow 4 [3;4;0;1;2] 10 15  (* :396 *)
  ; mk_rrow 4 [2;3;4;0;1] 14 8  (* :397 *)
  ; mk_rrow 5 [1;2;3;4;0] 12 8  (* :400 *)
  ; mk_rrow 5 [0;1;2;3;4] 15 5  (* :401 *)
  ; mk_rrow 5 [4;0;1;2;3] 10 12  (* :402 *)
  ; mk_rrow 5 [3;4;0;1;2] 4 9  (* :403 *)
  ; mk_rrow 5 [2;3;4;0;1] 1 12  (* :404 *)
  ; mk_rrow 5 [1;2;3;4;0] 5 5  (* :405 *)
  ; mk_rrow 5 [0;1;2;3;4] 8 14  (* :406 *)
  ; mk_rrow 5 [4;0;1;2;3] 7 6  (* :407 *)
  ; mk_rrow 5 [3;4;0;1;2] 6 8  (* :408 *)
  ; mk_rrow 5 [2;3;4;0;1] 2 13  (* :409 *)
  ; mk_rrow 5 [1;2;3;4;0] 13 6  (* :410 *)
  ; mk_rrow 5 [0;1;2;3;4] 14 5  (* :411 *)
  ; mk_rrow 5 [4;0;1;2;3] 0 15  (* :412 *)
  ; mk_rrow 5 [3;4;0;1;2] 3 13  (* :413 *)
  ; mk_rrow 5 [2;3;4;0;1] 9 11  (* :414 *)
  ; mk_rrow 5 [1;2;3;4;0] 11 11  (* :415 *)
  ].

