#!/usr/bin/env python3
"""Compares the specifications and the model with Python's hashlib, and with
a SipHash written here, on many lengths.  Not a proof: evidence that the
specifications say what is meant.  Works in a scratch directory; needs a built
/verif/rocq.

usage: run_vectors.py [count]"""
import hashlib, hmac, os, random, subprocess, sys, tempfile
M = (1 << 64) - 1
def rotl(x, b): return ((x << b) | (x >> (64 - b))) & M
def sip_round(v):
    a, b, c, d = v
    a = (a + b) & M; b = rotl(b, 13) ^ a; a = rotl(a, 32)
    c = (c + d) & M; d = rotl(d, 16) ^ c
    a = (a + d) & M; d = rotl(d, 21) ^ a
    c = (c + b) & M; b = rotl(b, 17) ^ c; c = rotl(c, 32)
    return a, b, c, d
def sip(m, k0, k1):
    v = (k0 ^ 0x736f6d6570736575, k1 ^ 0x646f72616e646f6d, k0 ^ 0x6c7967656e657261, k1 ^ 0x7465646279746573)
    p = m + bytes(7 - len(m) % 8) + bytes([len(m) & 255])
    for i in range(0, len(p), 8):
        w = int.from_bytes(p[i:i+8], "little")
        v = sip_round(sip_round((v[0], v[1], v[2], v[3] ^ w)))
        v = (v[0] ^ w,) + v[1:]
    v = (v[0], v[1], v[2] ^ 0xff, v[3])
    for _ in range(4): v = sip_round(v)
    return (v[0] ^ v[1] ^ v[2] ^ v[3]).to_bytes(8, "little")
assert sip(bytes(range(15)), 0x0706050403020100, 0x0f0e0d0c0b0a0908).hex() == "e545be4961ca29a1"

ALGOS = {"Sha1": "sha1", "Sha256": "sha256", "Sha384": "sha384", "Sha512": "sha512",
         "Sha512_256": "sha512_256", "Ripemd160": "ripemd160"}
def lit(b): return "[" + "; ".join("x%02x" % x for x in b) + "]"
def chunks(r, m):
    out = []
    while m:
        k = min(len(m), r.choice([1, 7, 8, 63, 64, 65, 127, 128]))
        out.append(m[:k]); m = m[k:]
        if r.random() < 0.2: out.append(b"")
    return out
def main():
    n = int(sys.argv[1]) if len(sys.argv) > 1 else 12
    r = random.Random(1)
    lengths = [0, 1, 3, 55, 56, 63, 64, 65, 111, 112, 119, 127, 128, 129, 239, 240, 256][:]
    lengths += [r.randrange(300) for _ in range(n)]
    t, skipped = [], []
    cfgs = ["(target 64 true)", "(target 32 false)", "(with_small (target 64 true) true)", "(with_sha_ni (target 64 true) true)"]
    for a, h in ALGOS.items():
        try: hashlib.new(h)
        except ValueError: skipped.append(a); continue
        for l in lengths:
            m = r.randbytes(l)
            d = hashlib.new(h, m).digest()
            t.append("hash_is (hash_of %s %s) %s" % (a, lit(m), lit(d)))
            c = r.choice(cfgs)
            t.append("res_is (digest_of %s (FromNew (KAlgo %s)) %s) %s" %
                     (c, a, "[" + "; ".join(map(lit, chunks(r, m))) + "]", lit(d)))
        for l in (0, 20, 64, 65, 128, 129, 140):
            k, m = r.randbytes(l), r.randbytes(r.randrange(150))
            t.append("res_is (digest_of (target 64 true) (FromKey (KAlgo %s) %s) [%s]) %s" %
                     (a, lit(k), lit(m), lit(hmac.new(k, m, h).digest())))
    for l in range(0, 40):
        k0, k1, m = r.getrandbits(64), r.getrandbits(64), r.randbytes(l)
        d = sip(m, k0, k1)
        t.append("hash_is (le_octets 8 (siphash24 %d %d %s)) %s" % (k0, k1, lit(m), lit(d)))
        t.append("res_is (digest_of (target 64 true) (FromKeys %d %d) [%s; %s]) %s" %
                 (k0, k1, lit(m[:l//3]), lit(m[l//3:]), lit(d)))
    for tag in (b"", b"BIP0340/challenge", bytes(70)):
        m = r.randbytes(90); h = hashlib.sha256(tag).digest()
        t.append("res_is (digest_of (target 64 true) (FromNew (KTag %s)) [%s]) %s" %
                 (lit(tag), lit(m), lit(hashlib.sha256(h + h + m).digest())))
    root = os.path.join(os.path.dirname(os.path.abspath(__file__)), "..", "rocq", "theories")
    with tempfile.TemporaryDirectory() as w:
        f = os.path.join(w, "Vectors.v")
        with open(f, "w") as o:
            o.write("""From Coq Require Import NArith List Bool Strings.Byte.
From Verif Require Import Base SpecBase SpecMD SpecMac ModelEngine ModelAll ModelTypes ModelStore SpecApi SpecStore SpecMore.
Import ListNotations. Open Scope N_scope.
Definition hash_is (a b : list byte) : bool := if list_eq_dec Byte.byte_eq_dec a b then true else false.
Definition res_is (a : res bytes) (b : list byte) : bool := match a with Ok a => hash_is a b | Panic _ => false end.
Definition with_small (c : config) (b : bool) : config :=
  {| usize_bits := usize_bits c; overflow_checks := overflow_checks c; debug_assertions := debug_assertions c;
     small_hash := b; sha_ni := sha_ni c; big_endian := big_endian c |}.
Definition with_sha_ni (c : config) (b : bool) : config :=
  {| usize_bits := usize_bits c; overflow_checks := overflow_checks c; debug_assertions := debug_assertions c;
     small_hash := small_hash c; sha_ni := b; big_endian := big_endian c |}.
""")
            for i, x in enumerate(t): o.write("Definition t%d := %s.\n" % (i, x))
            o.write("Eval vm_compute in (List.length (filter negb [%s])).\n" % "; ".join("t%d" % i for i in range(len(t))))
            o.write("Eval vm_compute in (map fst (filter (fun p => negb (snd p)) [%s])).\n"
                    % "; ".join("(%d, t%d)" % (i, i) for i in range(len(t))))
        out = subprocess.run(["timeout", "3000", "coqc", "-Q", root, "Verif", f], capture_output=True, text=True)
        print(out.stdout, out.stderr)
    print(len(t), "comparisons; not available in hashlib:", skipped)
main()
