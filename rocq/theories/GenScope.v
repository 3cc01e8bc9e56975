(** Generated by tools/rs2v.py from the Rust source; do not edit. *)
From Coq Require Import String List.
From Verif Require Import ScopeBase.
Import ListNotations.
Open Scope string_scope.

Definition scopes : list scoped := [
  (** default, src/sha1.rs:25-31 *)
  mk_scoped "sha1" "Default" "default" Always
    (SLet [] (SNode []) (SNode []));
  (** n_bytes_hashed, src/sha1.rs:40-40 *)
  mk_scoped "sha1" "HashEngine" "n_bytes_hashed" Always
    (SLet ["self"] (SNode []) (SVar "self"));
  (** input, src/internal_macros.rs:22-36 *)
  mk_scoped "sha1" "HashEngine" "input" NeverFuzz
    (SLet ["self"; "inp"] (SNode []) (SNode [SVar "inp"; SLet ["buf_idx"] (SVar "self") (SLet ["rem_len"] (SVar "buf_idx") (SLet ["write_len"] (SNode [SVar "rem_len"; SVar "inp"]) (SNode [SNode [SNode [SVar "self"; SNode [SVar "buf_idx"; SNode [SVar "buf_idx"; SVar "write_len"]]]; SNode [SVar "inp"; SVar "write_len"]]; SNode [SNode [SVar "self"; SVar "write_len"]; SNode [SNode [SVar "self"; SVar "self"]; SNode [SVar "inp"; SNode [SVar "inp"; SVar "write_len"]]]]])))]));
  (** finalize, src/sha1.rs:45-62 *)
  mk_scoped "sha1" "HashEngine" "finalize" Always
    (SLet ["self"] (SNode []) (SLet ["data_len"] (SVar "self") (SLet ["zeroes"] (SNode []) (SNode [SVar "self"; SNode [SNode [SNode [SVar "self"; SVar "zeroes"]; SNode [SVar "self"; SVar "zeroes"]]; SLet ["pad_length"] (SNode [SVar "zeroes"; SVar "self"]) (SNode [SNode [SVar "self"; SNode [SVar "zeroes"; SVar "pad_length"]]; SNode [SNode [SVar "self"; SVar "zeroes"]; SNode [SNode [SVar "self"; SVar "data_len"]; SNode [SVar "self"; SVar "self"]]]])]]))));
  (** midstate, src/sha1.rs:66-72 *)
  mk_scoped "sha1" "HashEngine" "midstate" NeverFuzz
    (SLet ["self"] (SNode []) (SLet ["ret"] (SNode []) (SNode [SLet ["val"; "ret_bytes"] (SNode [SVar "self"; SVar "ret"]) (SNode [SVar "ret_bytes"; SVar "val"]); SVar "ret"])));
  (** from_midstate, src/sha1.rs:82-91 *)
  mk_scoped "sha1" "HashEngine" "from_midstate" Always
    (SLet ["midstate"; "length"] (SNode []) (SNode [SVar "length"; SLet ["ret"] (SNode []) (SNode [SLet ["ret_val"; "midstate_bytes"] (SNode [SVar "ret"; SVar "midstate"]) (SNode [SVar "ret_val"; SVar "midstate_bytes"]); SNode [SVar "ret"; SVar "length"]])]));
  (** default, src/sha256.rs:32-41 *)
  mk_scoped "sha256" "Default" "default" Always
    (SLet [] (SNode []) (SNode []));
  (** n_bytes_hashed, src/sha256.rs:50-50 *)
  mk_scoped "sha256" "HashEngine" "n_bytes_hashed" Always
    (SLet ["self"] (SNode []) (SVar "self"));
  (** input, src/internal_macros.rs:22-36 *)
  mk_scoped "sha256" "HashEngine" "input" NeverFuzz
    (SLet ["self"; "inp"] (SNode []) (SNode [SVar "inp"; SLet ["buf_idx"] (SVar "self") (SLet ["rem_len"] (SVar "buf_idx") (SLet ["write_len"] (SNode [SVar "rem_len"; SVar "inp"]) (SNode [SNode [SNode [SVar "self"; SNode [SVar "buf_idx"; SNode [SVar "buf_idx"; SVar "write_len"]]]; SNode [SVar "inp"; SVar "write_len"]]; SNode [SNode [SVar "self"; SVar "write_len"]; SNode [SNode [SVar "self"; SVar "self"]; SNode [SVar "inp"; SNode [SVar "inp"; SVar "write_len"]]]]])))]));
  (** finalize, src/sha256.rs:56-73 *)
  mk_scoped "sha256" "HashEngine" "finalize" NeverFuzz
    (SLet ["self"] (SNode []) (SLet ["data_len"] (SVar "self") (SLet ["zeroes"] (SNode []) (SNode [SVar "self"; SNode [SNode [SNode [SVar "self"; SVar "zeroes"]; SNode [SVar "self"; SVar "zeroes"]]; SLet ["pad_length"] (SNode [SVar "zeroes"; SVar "self"]) (SNode [SNode [SVar "self"; SNode [SVar "zeroes"; SVar "pad_length"]]; SNode [SNode [SVar "self"; SVar "zeroes"]; SNode [SNode [SVar "self"; SVar "data_len"]; SNode [SVar "self"; SVar "self"]]]])]]))));
  (** midstate, src/sha256.rs:88-94 *)
  mk_scoped "sha256" "HashEngine" "midstate" NeverFuzz
    (SLet ["self"] (SNode []) (SLet ["ret"] (SNode []) (SNode [SLet ["val"; "ret_bytes"] (SNode [SVar "self"; SVar "ret"]) (SNode [SVar "ret_bytes"; SVar "val"]); SVar "ret"])));
  (** from_midstate, src/sha256.rs:104-113 *)
  mk_scoped "sha256" "HashEngine" "from_midstate" Always
    (SLet ["midstate"; "length"] (SNode []) (SNode [SVar "length"; SLet ["ret"] (SNode []) (SNode [SLet ["ret_val"; "midstate_bytes"] (SNode [SVar "ret"; SVar "midstate"]) (SNode [SVar "ret_val"; SVar "midstate_bytes"]); SNode [SVar "ret"; SVar "length"]])]));
  (** default, src/sha512.rs:26-35 *)
  mk_scoped "sha512" "Default" "default" Always
    (SLet [] (SNode []) (SNode []));
  (** n_bytes_hashed, src/sha512.rs:72-72 *)
  mk_scoped "sha512" "HashEngine" "n_bytes_hashed" Always
    (SLet ["self"] (SNode []) (SVar "self"));
  (** input, src/internal_macros.rs:22-36 *)
  mk_scoped "sha512" "HashEngine" "input" NeverFuzz
    (SLet ["self"; "inp"] (SNode []) (SNode [SVar "inp"; SLet ["buf_idx"] (SVar "self") (SLet ["rem_len"] (SVar "buf_idx") (SLet ["write_len"] (SNode [SVar "rem_len"; SVar "inp"]) (SNode [SNode [SNode [SVar "self"; SNode [SVar "buf_idx"; SNode [SVar "buf_idx"; SVar "write_len"]]]; SNode [SVar "inp"; SVar "write_len"]]; SNode [SNode [SVar "self"; SVar "write_len"]; SNode [SNode [SVar "self"; SVar "self"]; SNode [SVar "inp"; SNode [SVar "inp"; SVar "write_len"]]]]])))]));
  (** finalize, src/sha512.rs:78-96 *)
  mk_scoped "sha512" "HashEngine" "finalize" NeverFuzz
    (SLet ["self"] (SNode []) (SLet ["data_len"] (SVar "self") (SLet ["zeroes"] (SNode []) (SNode [SVar "self"; SNode [SNode [SNode [SVar "self"; SVar "zeroes"]; SNode [SVar "self"; SVar "zeroes"]]; SLet ["pad_length"] (SNode [SVar "zeroes"; SVar "self"]) (SNode [SNode [SVar "self"; SNode [SVar "zeroes"; SVar "pad_length"]]; SNode [SNode [SVar "self"; SVar "zeroes"]; SNode [SVar "self"; SNode [SNode [SVar "self"; SVar "data_len"]; SNode [SVar "self"; SVar "self"]]]]])]]))));
  (** midstate, src/sha512.rs:107-113 *)
  mk_scoped "sha512" "HashEngine" "midstate" NeverFuzz
    (SLet ["self"] (SNode []) (SLet ["ret"] (SNode []) (SNode [SLet ["val"; "ret_bytes"] (SNode [SVar "self"; SVar "ret"]) (SNode [SVar "ret_bytes"; SVar "val"]); SVar "ret"])));
  (** from_midstate, src/sha512.rs:123-132 *)
  mk_scoped "sha512" "HashEngine" "from_midstate" Always
    (SLet ["midstate"; "length"] (SNode []) (SNode [SVar "length"; SLet ["ret"] (SNode []) (SNode [SLet ["ret_val"; "midstate_bytes"] (SNode [SVar "ret"; SVar "midstate"]) (SNode [SVar "ret_val"; SVar "midstate_bytes"]); SNode [SVar "ret"; SVar "length"]])]));
  (** default, src/sha384.rs:20-22 *)
  mk_scoped "sha384" "Default" "default" Always
    (SLet [] (SNode []) (SNode []));
  (** n_bytes_hashed, src/sha384.rs:31-31 *)
  mk_scoped "sha384" "HashEngine" "n_bytes_hashed" Always
    (SLet ["self"] (SNode []) (SVar "self"));
  (** input, src/sha384.rs:34-34 *)
  mk_scoped "sha384" "HashEngine" "input" Always
    (SLet ["self"; "data"] (SNode []) (SNode [SVar "self"; SVar "data"]));
  (** finalize, src/sha384.rs:37-41 *)
  mk_scoped "sha384" "HashEngine" "finalize" Always
    (SLet ["self"] (SNode []) (SLet ["ret"] (SNode []) (SNode [SNode [SVar "ret"; SVar "self"]; SVar "ret"])));
  (** midstate, src/sha384.rs:44-44 *)
  mk_scoped "sha384" "HashEngine" "midstate" Always
    (SLet ["self"] (SNode []) (SVar "self"));
  (** from_midstate, src/sha384.rs:47-49 *)
  mk_scoped "sha384" "HashEngine" "from_midstate" Always
    (SLet ["midstate"; "length"] (SNode []) (SNode [SVar "midstate"; SVar "length"]));
  (** default, src/sha512_256.rs:30-32 *)
  mk_scoped "sha512_256" "Default" "default" Always
    (SLet [] (SNode []) (SNode []));
  (** n_bytes_hashed, src/sha512_256.rs:41-41 *)
  mk_scoped "sha512_256" "HashEngine" "n_bytes_hashed" Always
    (SLet ["self"] (SNode []) (SVar "self"));
  (** input, src/sha512_256.rs:44-44 *)
  mk_scoped "sha512_256" "HashEngine" "input" Always
    (SLet ["self"; "data"] (SNode []) (SNode [SVar "self"; SVar "data"]));
  (** finalize, src/sha512_256.rs:47-52 *)
  mk_scoped "sha512_256" "HashEngine" "finalize" Always
    (SLet ["self"] (SNode []) (SLet ["sha512"] (SVar "self") (SLet ["hash"] (SNode []) (SNode [SNode [SVar "hash"; SVar "sha512"]; SVar "hash"]))));
  (** midstate, src/sha512_256.rs:55-55 *)
  mk_scoped "sha512_256" "HashEngine" "midstate" Always
    (SLet ["self"] (SNode []) (SVar "self"));
  (** from_midstate, src/sha512_256.rs:58-60 *)
  mk_scoped "sha512_256" "HashEngine" "from_midstate" Always
    (SLet ["midstate"; "length"] (SNode []) (SNode [SVar "midstate"; SVar "length"]));
  (** default, src/ripemd160.rs:25-31 *)
  mk_scoped "ripemd160" "Default" "default" Always
    (SLet [] (SNode []) (SNode []));
  (** n_bytes_hashed, src/ripemd160.rs:40-40 *)
  mk_scoped "ripemd160" "HashEngine" "n_bytes_hashed" Always
    (SLet ["self"] (SNode []) (SVar "self"));
  (** input, src/internal_macros.rs:22-36 *)
  mk_scoped "ripemd160" "HashEngine" "input" NeverFuzz
    (SLet ["self"; "inp"] (SNode []) (SNode [SVar "inp"; SLet ["buf_idx"] (SVar "self") (SLet ["rem_len"] (SVar "buf_idx") (SLet ["write_len"] (SNode [SVar "rem_len"; SVar "inp"]) (SNode [SNode [SNode [SVar "self"; SNode [SVar "buf_idx"; SNode [SVar "buf_idx"; SVar "write_len"]]]; SNode [SVar "inp"; SVar "write_len"]]; SNode [SNode [SVar "self"; SVar "write_len"]; SNode [SNode [SVar "self"; SVar "self"]; SNode [SVar "inp"; SNode [SVar "inp"; SVar "write_len"]]]]])))]));
  (** finalize, src/ripemd160.rs:46-63 *)
  mk_scoped "ripemd160" "HashEngine" "finalize" NeverFuzz
    (SLet ["self"] (SNode []) (SLet ["data_len"] (SVar "self") (SLet ["zeroes"] (SNode []) (SNode [SVar "self"; SNode [SNode [SNode [SVar "self"; SVar "zeroes"]; SNode [SVar "self"; SVar "zeroes"]]; SLet ["pad_length"] (SNode [SVar "zeroes"; SVar "self"]) (SNode [SNode [SVar "self"; SNode [SVar "zeroes"; SVar "pad_length"]]; SNode [SNode [SVar "self"; SVar "zeroes"]; SNode [SNode [SVar "self"; SVar "data_len"]; SNode [SVar "self"; SVar "self"]]]])]]))));
  (** midstate, src/ripemd160.rs:74-80 *)
  mk_scoped "ripemd160" "HashEngine" "midstate" NeverFuzz
    (SLet ["self"] (SNode []) (SLet ["ret"] (SNode []) (SNode [SLet ["val"; "ret_bytes"] (SNode [SVar "self"; SVar "ret"]) (SNode [SVar "ret_bytes"; SVar "val"]); SVar "ret"])));
  (** from_midstate, src/ripemd160.rs:90-99 *)
  mk_scoped "ripemd160" "HashEngine" "from_midstate" Always
    (SLet ["midstate"; "length"] (SNode []) (SNode [SVar "length"; SLet ["ret"] (SNode []) (SNode [SLet ["ret_val"; "midstate_bytes"] (SNode [SVar "ret"; SVar "midstate"]) (SNode [SVar "ret_val"; SVar "midstate_bytes"]); SNode [SVar "ret"; SVar "length"]])]));
  (** default, src/siphash24.rs:120-120 *)
  mk_scoped "siphash24" "Default" "default" Always
    (SLet [] (SNode []) (SNode []));
  (** n_bytes_hashed, src/siphash24.rs:129-129 *)
  mk_scoped "siphash24" "HashEngine" "n_bytes_hashed" Always
    (SLet ["self"] (SNode []) (SVar "self"));
  (** input, src/siphash24.rs:133-171 *)
  mk_scoped "siphash24" "HashEngine" "input" Always
    (SLet ["self"; "data"] (SNode []) (SLet ["length"] (SVar "data") (SNode [SNode [SVar "self"; SVar "length"]; SLet ["needed"] (SNode []) (SNode [SNode [SVar "self"; SNode [SNode [SVar "needed"; SVar "self"]; SNode [SNode [SVar "self"; SNode [SNode [SVar "data"; SNode [SVar "length"; SVar "needed"]]; SVar "self"]]; SNode [SNode [SVar "length"; SVar "needed"]; SNode [SVar "self"; SVar "length"]; SNode [SNode [SVar "self"; SVar "self"]; SNode [SVar "self"; SNode [SNode [SVar "self"; SVar "self"]; SVar "self"]]]]]]]; SLet ["len"] (SNode [SVar "length"; SVar "needed"]) (SLet ["left"] (SVar "len") (SLet ["i"] (SVar "needed") (SNode [SNode [SNode [SVar "i"; SNode [SVar "len"; SVar "left"]]; SLet ["mi"] (SNode [SNode [SVar "i"; SVar "data"]; SLet ["data_m"] (SNode []) (SNode [SNode [SNode [SVar "data"; SVar "i"]; SVar "data_m"]; SVar "data_m"])]) (SNode [SNode [SVar "self"; SVar "mi"]; SNode [SVar "self"; SNode [SNode [SVar "self"; SVar "mi"]; SVar "i"]]])]; SNode [SNode [SVar "self"; SNode [SVar "data"; SVar "i"; SVar "left"]]; SNode [SVar "self"; SVar "left"]]])))])])));
  (** finalize, src/siphash24.rs:175-189 *)
  mk_scoped "siphash24" "HashEngine" "finalize" NeverFuzz
    (SLet ["self"] (SNode []) (SLet ["state"] (SVar "self") (SLet ["b"] (SNode [SVar "self"; SVar "self"]) (SNode [SNode [SVar "state"; SVar "b"]; SNode [SVar "state"; SNode [SNode [SVar "state"; SVar "b"]; SNode [SVar "state"; SNode [SVar "state"; SLet ["hash"] (SNode [SNode [SNode [SVar "state"; SVar "state"]; SVar "state"]; SVar "state"]) (SVar "hash")]]]]]))));
  (** midstate, src/siphash24.rs:199-199 *)
  mk_scoped "siphash24" "HashEngine" "midstate" Always
    (SLet ["self"] (SNode []) (SVar "self"));
  (** from_midstate, src/siphash24.rs:202-204 *)
  mk_scoped "siphash24" "HashEngine" "from_midstate" Always
    (SLet ["midstate"; "_length"] (SNode []) (SVar "midstate"));
  (** default, src/hmac.rs:201-201 *)
  mk_scoped "hmac" "Default" "default" Always
    (SLet [] (SNode []) (SNode []));
  (** input, src/hmac.rs:248-248 *)
  mk_scoped "hmac" "HashEngine" "input" Always
    (SLet ["self"; "data"] (SNode []) (SNode [SVar "self"; SVar "data"]));
  (** n_bytes_hashed, src/hmac.rs:251-251 *)
  mk_scoped "hmac" "HashEngine" "n_bytes_hashed" Always
    (SLet ["self"] (SNode []) (SVar "self"));
  (** finalize, src/hmac.rs:254-258 *)
  mk_scoped "hmac" "HashEngine" "finalize" Always
    (SLet ["self"] (SNode []) (SLet ["ihash"] (SVar "self") (SNode [SNode [SVar "self"; SVar "ihash"]; SVar "self"])));
  (** midstate, src/hmac.rs:261-263 *)
  mk_scoped "hmac" "HashEngine" "midstate" Always
    (SLet ["self"] (SNode []) (SNode [SVar "self"; SVar "self"]));
  (** from_midstate, src/hmac.rs:266-271 *)
  mk_scoped "hmac" "HashEngine" "from_midstate" Always
    (SLet ["midstate"; "length"] (SNode []) (SNode [SNode [SVar "midstate"; SVar "length"]; SNode [SVar "midstate"; SVar "length"]]));
  (** default, src/sha256t.rs:15-15 *)
  mk_scoped "sha256t" "Default" "default" Always
    (SLet [] (SNode []) (SNode []));
  (** new, src/sha256t.rs:24-24 *)
  mk_scoped "sha256t" "HashEngine" "new" Always
    (SLet [] (SNode []) (SNode []));
  (** input, src/sha256t.rs:27-27 *)
  mk_scoped "sha256t" "HashEngine" "input" Always
    (SLet ["self"; "data"] (SNode []) (SNode [SVar "self"; SVar "data"]));
  (** n_bytes_hashed, src/sha256t.rs:30-30 *)
  mk_scoped "sha256t" "HashEngine" "n_bytes_hashed" Always
    (SLet ["self"] (SNode []) (SVar "self"));
  (** finalize, src/sha256t.rs:33-33 *)
  mk_scoped "sha256t" "HashEngine" "finalize" Always
    (SLet ["self"] (SNode []) (SVar "self"));
  (** midstate, src/sha256t.rs:36-36 *)
  mk_scoped "sha256t" "HashEngine" "midstate" Always
    (SLet ["self"] (SNode []) (SVar "self"));
  (** from_midstate, src/sha256t.rs:39-42 *)
  mk_scoped "sha256t" "HashEngine" "from_midstate" Always
    (SLet ["midstate"; "length"] (SNode []) (SLet ["inner"] (SNode [SVar "midstate"; SVar "length"]) (SVar "inner")));
  (** input, src/internal_macros.rs:39-44 *)
  mk_scoped "sha1" "HashEngine" "input" OnlyFuzz
    (SLet ["self"; "inp"] (SNode []) (SNode [SLet ["c"] (SVar "inp") (SNode [SVar "self"; SVar "c"]); SNode [SVar "self"; SVar "inp"]]));
  (** midstate, src/sha1.rs:75-79 *)
  mk_scoped "sha1" "HashEngine" "midstate" OnlyFuzz
    (SLet ["self"] (SNode []) (SLet ["ret"] (SNode []) (SNode [SNode [SVar "ret"; SVar "self"]; SVar "ret"])));
  (** input, src/internal_macros.rs:39-44 *)
  mk_scoped "sha256" "HashEngine" "input" OnlyFuzz
    (SLet ["self"; "inp"] (SNode []) (SNode [SLet ["c"] (SVar "inp") (SNode [SVar "self"; SVar "c"]); SNode [SVar "self"; SVar "inp"]]));
  (** finalize, src/sha256.rs:76-84 *)
  mk_scoped "sha256" "HashEngine" "finalize" OnlyFuzz
    (SLet ["self"] (SNode []) (SLet ["hash"] (SVar "e") (SNode [SNode [SVar "hash"; SVar "hash"]; SVar "hash"])));
  (** midstate, src/sha256.rs:97-101 *)
  mk_scoped "sha256" "HashEngine" "midstate" OnlyFuzz
    (SLet ["self"] (SNode []) (SLet ["ret"] (SNode []) (SNode [SNode [SVar "ret"; SVar "self"]; SVar "ret"])));
  (** input, src/internal_macros.rs:39-44 *)
  mk_scoped "sha512" "HashEngine" "input" OnlyFuzz
    (SLet ["self"; "inp"] (SNode []) (SNode [SLet ["c"] (SVar "inp") (SNode [SVar "self"; SVar "c"]); SNode [SVar "self"; SVar "inp"]]));
  (** finalize, src/sha512.rs:99-103 *)
  mk_scoped "sha512" "HashEngine" "finalize" OnlyFuzz
    (SLet ["self"] (SNode []) (SLet ["hash"] (SVar "self") (SNode [SVar "hash"; SVar "hash"])));
  (** midstate, src/sha512.rs:116-120 *)
  mk_scoped "sha512" "HashEngine" "midstate" OnlyFuzz
    (SLet ["self"] (SNode []) (SLet ["ret"] (SNode []) (SNode [SNode [SVar "ret"; SVar "self"]; SVar "ret"])));
  (** input, src/internal_macros.rs:39-44 *)
  mk_scoped "ripemd160" "HashEngine" "input" OnlyFuzz
    (SLet ["self"; "inp"] (SNode []) (SNode [SLet ["c"] (SVar "inp") (SNode [SVar "self"; SVar "c"]); SNode [SVar "self"; SVar "inp"]]));
  (** finalize, src/ripemd160.rs:66-70 *)
  mk_scoped "ripemd160" "HashEngine" "finalize" OnlyFuzz
    (SLet ["self"] (SNode []) (SLet ["res"] (SVar "self") (SNode [SNode [SVar "res"; SVar "self"]; SVar "res"])));
  (** midstate, src/ripemd160.rs:83-87 *)
  mk_scoped "ripemd160" "HashEngine" "midstate" OnlyFuzz
    (SLet ["self"] (SNode []) (SLet ["ret"] (SNode []) (SNode [SNode [SVar "ret"; SVar "self"]; SVar "ret"])));
  (** finalize, src/siphash24.rs:192-196 *)
  mk_scoped "siphash24" "HashEngine" "finalize" OnlyFuzz
    (SLet ["self"] (SNode []) (SLet ["state"] (SVar "self") (SLet ["hash"] (SNode [SNode [SNode [SVar "state"; SVar "state"]; SVar "state"]; SVar "state"]) (SVar "hash"))))
].
