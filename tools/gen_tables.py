#!/usr/bin/env python3
"""Transcribes the unrolled round code of /repo into Coq data.

Usage: gen_tables.py /repo /verif/rocq/theories
One table row per macro invocation / intrinsic call, in source order, with the
source line in a comment.  Nothing is normalised or completed: the numbers and
names are exactly the ones in the Rust text."""
import re, sys, os
repo, out = sys.argv[1], sys.argv[2]
V = {c: i for i, c in enumerate("abcdefgh")}

def rd(f): return open(os.path.join(repo, "src", f)).read().split("\n")

def sha2_rows(fname, lo, hi):
    rows = []
    for ln in range(lo, hi + 1):
        t = rd(fname)[ln - 1]
        m = re.match(r"\s*round!\(([^;]*)\);", t)
        if not m: continue
        a = [x.strip() for x in m.group(1).split(",")]
        vs = "[" + ";".join(str(V[x]) for x in a[:8]) + "]"
        ws = [re.match(r"w\[(\d+)\]$", x).group(1) for x in a[9:]]
        assert len(ws) in (1, 4)
        later = "None" if len(ws) == 1 else "(Some (%s, %s, %s))" % tuple(ws[1:])
        rows.append((ln, "mk_row %s %s %s %s" % (vs, a[8], ws[0], later)))
    return rows

def emit_rows(name, typ, rows, f, cite):
    f.write("(** %s *)\nDefinition %s : list %s :=\n" % (cite, name, typ))
    for i, (ln, r) in enumerate(rows):
        f.write("  %s %s  (* :%d *)\n" % ("[" if i == 0 else ";", r, ln))
    f.write("  ].\n\n")

HEAD = "(** Generated by tools/gen_tables.py from /repo; do not edit.\n    %s *)\nFrom Verif Require Import Base %s.\n\n"

with open(os.path.join(out, "TablesSha2.v"), "w") as f:
    f.write(HEAD % ("The round! invocations of the SHA-2 block functions.", "ModelSha2Round"))
    f.write("Local Open Scope nat_scope.\n")
    f.write("\n")
    emit_rows("software_rows", "round_row", sha2_rows("sha256.rs", 721, 815), f,
              "src/sha256.rs:738-804, Engine::software_process_block")
    emit_rows("const_rows", "round_row", sha2_rows("sha256.rs", 279, 425), f,
              "src/sha256.rs:337-403, Midstate::const_hash")
    emit_rows("sha512_rows", "round_row", sha2_rows("sha512.rs", 204, 314), f,
              "src/sha512.rs:221-304, Engine::process_block")

def rip(par):
    res = []
    pat = re.compile(r"\s*(par_)?round(\d): h_ordering (\d), (\d), (\d), (\d), (\d); data_index\s+(\d+); roll_shift\s+(\d+);")
    for ln, t in enumerate(rd("ripemd160.rs"), 1):
        m = pat.match(t)
        if m and bool(m.group(1)) == par:
            res.append((ln, "mk_rrow %s [%s] %s %s" % (m.group(2), ";".join(m.groups()[2:7]), m.group(8), m.group(9))))
    return res
with open(os.path.join(out, "TablesRipemd.v"), "w") as f:
    f.write(HEAD % ("The argument list of the process_block! invocation.", "ModelRipemdRound"))
    f.write("Local Open Scope nat_scope.\n\n")
    emit_rows("left_rows", "ripemd_row", rip(False), f, "src/ripemd160.rs:238-322, round1..round5")
    emit_rows("right_rows", "ripemd_row", rip(True), f, "src/ripemd160.rs:325-415, par_round1..par_round5")

# SIMD
src = rd("sha256.rs")
lo = next(i for i, t in enumerate(src) if "unsafe fn process_block_simd_x86_intrinsics" in t)
hi = next(i for i, t in enumerate(src) if "// Algorithm copied from libsecp256k1" in t)
stmts = []; cur = ""; start = None
for i in range(lo + 1, hi):
    t = re.sub(r"//.*", "", src[i]); t = re.sub(r"/\*.*\*/", "", t).strip()
    if t in ("{", "}", "") or t.startswith("#["): continue
    if start is None: start = i + 1
    cur += " " + t
    if cur.endswith(";"):
        stmts.append((start, re.sub(r"\s+", " ", cur.strip()))); cur = ""; start = None
R = "state0 state1 msg tmp msg0 msg1 msg2 msg3 abef_save cdgh_save".split()
rows = []
for ln, s in stmts:
    if s.startswith("let (") : continue
    def k(p):
        return re.match(p + r"$", s)
    m = re.match(r"let MASK: __m128i = _mm_set_epi64x\((0x\w+?)u64 as i64, (0x\w+?)u64 as i64\);", s)
    if m: mask = (m.group(1).replace("_", ""), m.group(2).replace("_", "")); continue
    if s == "let block_offset = 0;": continue
    m = re.match(r"(\w+) = _mm_loadu_si128\(self\.h\.as_ptr\(\)\.add\((\d+)\) as \*const __m128i\);", s)
    if m: rows.append((ln, "LoadH %s %s" % m.groups())); continue
    m = re.match(r"(\w+) = _mm_loadu_si128\( ?self\.buffer\.as_ptr\(\)\.add\(block_offset(?: \+ (\d+))?\) as \*const __m128i\);", s)
    if m: rows.append((ln, "LoadBuf %s %s" % (m.group(1), m.group(2) or "0"))); continue
    m = re.match(r"(\w+) = _mm_shuffle_epi32\((\w+), (0x\w+)\);", s)
    if m: rows.append((ln, "Shuf32 %s %s %s" % m.groups())); continue
    m = re.match(r"(\w+) = _mm_shuffle_epi8\((\w+), MASK\);", s)
    if m: rows.append((ln, "Shuf8Mask %s %s" % m.groups())); continue
    m = re.match(r"(\w+) = _mm_(alignr_epi8|blend_epi16)\((\w+), (\w+), (\w+)\);", s)
    if m: rows.append((ln, "%s %s %s %s %s" % ({"alignr_epi8": "Alignr8", "blend_epi16": "Blend16"}[m.group(2)], m.group(1), m.group(3), m.group(4), m.group(5)))); continue
    m = re.match(r"(\w+) = _mm_add_epi32\( ?(\w+), _mm_set_epi64x\((0x\w+?)u64 as i64, (0x\w+?)u64 as i64\),? ?\);", s)
    if m: rows.append((ln, "AddK %s %s %s %s" % m.groups())); continue
    m = re.match(r"(\w+) = _mm_add_epi32\((\w+), (\w+)\);", s)
    if m: rows.append((ln, "Add32 %s %s %s" % m.groups())); continue
    m = re.match(r"(\w+) = _mm_sha256rnds2_epu32\((\w+), (\w+), (\w+)\);", s)
    if m: rows.append((ln, "Rnds2 %s %s %s %s" % m.groups())); continue
    m = re.match(r"(\w+) = _mm_sha256msg([12])_epu32\((\w+), (\w+)\);", s)
    if m: rows.append((ln, "Msg%s %s %s %s" % (m.group(2), m.group(1), m.group(3), m.group(4)))); continue
    m = re.match(r"_mm_storeu_si128\(self\.h\.as_mut_ptr\(\)\.add\((\d+)\) as \*mut __m128i, (\w+)\);", s)
    if m: rows.append((ln, "StoreH %s %s" % m.groups())); continue
    m = re.match(r"(\w+) = (\w+);", s)
    if m and m.group(1) in R and m.group(2) in R: rows.append((ln, "Mov %s %s" % m.groups())); continue
    raise SystemExit("unparsed: %d %s" % (ln, s))
def q(r):
    for n in R: r = re.sub(r"\b%s\b" % n, "R_" + n, r)
    return r
with open(os.path.join(out, "TablesSimd.v"), "w") as f:
    f.write(HEAD % ("The straight-line intrinsics program of src/sha256.rs:%d-%d." % (lo + 1, hi), "ModelSimd"))
    f.write("(** src/sha256.rs:481-482, MASK (high, low quadword) *)\nDefinition simd_mask : N * N := (%s, %s).\n\n" % mask)
    emit_rows("simd_program", "instr", [(l, q(r)) for l, r in rows], f, "src/sha256.rs:489-718")
print(len(rows), "simd instructions")
