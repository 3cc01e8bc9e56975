#!/usr/bin/env python3
# Generates /verif/properties.jsonl (kept as a script so the list is easy to edit).
import json, os
P = []
def p(title, statement, quantifier, why, anchors):
    P.append(dict(id="C%02d" % (len(P)+1), title=title, statement=statement,
                  quantifier=quantifier, why_tests_cant=why, anchors=anchors))

ANYMSG = "Test vectors cover a handful of messages; the claim is about every message of every length, including every position of the message end relative to a block boundary."
p("SHA-256 computes FIPS 180-4 SHA-256",
  "Creating a sha256 engine, feeding it any sequence of byte slices and finalizing returns exactly the FIPS 180-4 SHA-256 digest of their concatenation (also for sha256::Hash::hash and HashEngine::hash_byte_chunks).",
  "every list of byte slices whose total length fits the counter; every build configuration (usize width, overflow checks, debug assertions, small-hash, SIMD or software path)",
  ANYMSG, ["src/sha256.rs: Engine, finalize, process_block", "src/internal_macros.rs: engine_input_impl, hash_type"])
p("SHA-1 computes FIPS 180-4 SHA-1",
  "Feeding a sha1 engine any sequence of byte slices and finalizing returns exactly the FIPS 180-4 SHA-1 digest of their concatenation.",
  "every list of byte slices whose total length fits the counter; every build configuration", ANYMSG,
  ["src/sha1.rs: Engine, finalize, process_block"])
p("SHA-512 computes FIPS 180-4 SHA-512",
  "Feeding a sha512 engine any sequence of byte slices and finalizing returns exactly the FIPS 180-4 SHA-512 digest of their concatenation.",
  "every list of byte slices whose total length fits the counter; every build configuration", ANYMSG,
  ["src/sha512.rs: Engine, finalize, process_block"])
p("SHA-384 computes FIPS 180-4 SHA-384",
  "Feeding a sha384 engine any sequence of byte slices and finalizing returns exactly the FIPS 180-4 SHA-384 digest (48 bytes) of their concatenation.",
  "every list of byte slices whose total length fits the counter; every build configuration", ANYMSG,
  ["src/sha384.rs: Engine, finalize", "src/sha512.rs: Engine::sha384"])
p("SHA-512/256 computes FIPS 180-4 SHA-512/256",
  "Feeding a sha512_256 engine any sequence of byte slices and finalizing returns exactly the FIPS 180-4 SHA-512/256 digest (32 bytes) of their concatenation.",
  "every list of byte slices whose total length fits the counter; every build configuration", ANYMSG,
  ["src/sha512_256.rs: Engine, finalize", "src/sha512.rs: Engine::sha512_256"])
p("RIPEMD-160 computes the published RIPEMD-160",
  "Feeding a ripemd160 engine any sequence of byte slices and finalizing returns exactly the RIPEMD-160 digest (Dobbertin, Bosselaers, Preneel) of their concatenation.",
  "every list of byte slices whose total length fits the counter; every build configuration", ANYMSG,
  ["src/ripemd160.rs: Engine, finalize, process_block!"])
p("SipHash computes SipHash-2-4 under every key",
  "For all keys k0, k1, feeding Engine::with_keys(k0,k1) any sequence of byte slices and finalizing returns the 8 little-endian bytes of SipHash-2-4(k0,k1) of their concatenation; hash_with_keys agrees.",
  "all 2^128 keys, every list of byte slices, both host byte orders", ANYMSG + " The tail buffering has a separate path for every (bytes already buffered, slice length) pair.",
  ["src/siphash24.rs: Engine::with_keys, input, finalize, u8to64_le, load_int_le"])
p("HMAC is RFC 2104 over every engine",
  "hmac::Engine::<E>::new(key), any sequence of inputs, then finalize, returns H((K^opad) || H((K^ipad) || message)) where K is the key (hashed first if longer than the block size) zero-padded to the block size, for every engine E that computes H, in particular all eight engines of the crate and hmac engines themselves.",
  "every key length, every message and chunking, every lawful hash engine with block size at most 128",
  "The key-length boundary, the padding and the underlying engine vary independently; tests use one engine and six key/message pairs.",
  ["src/hmac.rs: Engine::new, input, finalize"])
p("Tagged SHA-256 is SHA256(SHA256(tag)||SHA256(tag)||msg)",
  "A sha256t engine whose tag starts from Midstate::hash_tag(tag) at length 64 returns, for any sequence of inputs, SHA256(SHA256(tag) || SHA256(tag) || message).",
  "every tag string, every message and chunking", ANYMSG,
  ["src/sha256t.rs: Engine, Tag, Hash::hash", "src/sha256.rs: Midstate::hash_tag"])
p("Splitting the input never matters",
  "For every engine, two sequences of input calls (empty slices included) whose concatenations are equal lead to the same digest, the same midstate and the same n_bytes_hashed; hash_byte_chunks equals hash of the concatenation.",
  "every engine, every pair of splittings of every message", "There are exponentially many splittings of each message; tests try whole-message and byte-by-byte.",
  ["src/internal_macros.rs: engine_input_impl", "src/siphash24.rs: input", "src/lib.rs: hash_byte_chunks"])
p("n_bytes_hashed counts the input",
  "After any sequence of inputs n_bytes_hashed equals the starting length plus the number of bytes fed (modulo 2^usize-width when overflow checks are off); for an hmac engine it equals the block size plus the bytes fed, i.e. it does not report only the user's bytes.",
  "every engine, every input sequence", "Ranges over all histories and over counter wrap-around, unreachable by a test that must feed 2^32 bytes.",
  ["src/internal_macros.rs: engine_input_impl", "src/hmac.rs: n_bytes_hashed", "src/lib.rs: n_bytes_hashed"])
p("input and finalize never panic below the counter limit",
  "As long as the padded length stays below 2^usize-width and the message below 2^61 bytes, input and finalize complete without any arithmetic overflow, out-of-range slice, failed debug assertion or failed expect.",
  "every engine, every input sequence below the limit, every build configuration", "Absence of a panic must hold at every message length and split, not just the sampled ones.",
  ["src/internal_macros.rs: engine_input_impl", "src/sha256.rs: finalize", "src/siphash24.rs: input"])
p("Counter overflow behaves exactly as specified",
  "With overflow checks on, feeding bytes past 2^usize-width panics; with checks off the counter wraps and the digest is the Merkle-Damgard hash whose length field is 8*(length mod 2^usize-width) mod 2^64 - so on 32-bit targets digests of 4 GiB or longer inputs are not the standard ones.",
  "every input sequence crossing the limit, every usize width", "A test would have to feed 2^32 or 2^64 bytes.",
  ["src/internal_macros.rs: engine_input_impl", "src/sha256.rs: finalize"])
p("The SHA-NI code path equals the software path",
  "For every chaining value and every 64-byte block, the x86 intrinsics implementation of the SHA-256 block function produces the same new chaining value as the portable implementation (and as FIPS 180-4).",
  "all 2^256 chaining values x 2^512 blocks", "CPU-dependent path; the input space cannot be enumerated and CI machines may lack or always have the feature.",
  ["src/sha256.rs: process_block, process_block_simd_x86_intrinsics, software_process_block"])
p("The small-hash feature never changes a digest",
  "For SHA-256, SHA-512 and RIPEMD-160, building with or without the small-hash feature gives the same block function on every chaining value and block, hence the same digests.",
  "all chaining values and blocks", "Feature combinations times all inputs.",
  ["src/sha256.rs: small_hash, fast_hash", "src/sha512.rs: small_hash, fast_hash", "src/ripemd160.rs: small_hash, round"])
p("const_hash equals hash",
  "sha256::Hash::const_hash(bytes) equals sha256::Hash::hash(bytes), the FIPS 180-4 digest, for every byte slice.",
  "every byte slice below the length limit", "The unit test covers lengths 0..256 with one content each.",
  ["src/sha256.rs: Hash::const_hash, Midstate::const_hash"])
p("hash_tag is the midstate of the doubled tag hash",
  "Midstate::hash_tag(tag) equals the midstate of a fresh sha256 engine after input SHA256(tag) || SHA256(tag).",
  "every tag byte string", ANYMSG, ["src/sha256.rs: Midstate::hash_tag, const_hash"])
p("SHA-256 midstate resume",
  "For a sha256 engine that has consumed a whole number of blocks, from_midstate(engine.midstate(), engine.n_bytes_hashed()) is indistinguishable from the engine under every continuation (inputs, midstate, n_bytes_hashed, finalize).",
  "every block-aligned history and every continuation", "Histories and continuations are unbounded.",
  ["src/sha256.rs: midstate, from_midstate (trait and inherent)"])
p("SHA-1 midstate resume",
  "For a sha1 engine that has consumed a whole number of blocks, from_midstate(engine.midstate(), engine.n_bytes_hashed()) is indistinguishable from the engine under every continuation.",
  "every block-aligned history and every continuation", "Histories and continuations are unbounded.",
  ["src/sha1.rs: midstate, from_midstate"])
p("RIPEMD-160 midstate resume (violated)",
  "For a ripemd160 engine that has consumed a whole number of blocks, from_midstate(engine.midstate(), engine.n_bytes_hashed()) resumes the same hash. The code violates this: midstate writes little-endian words, from_midstate reads them big-endian.",
  "every block-aligned history", "No unit test exercises it; the claim is about all histories.",
  ["src/ripemd160.rs: midstate, from_midstate"])
p("SHA-512 family midstate resume (violated)",
  "For sha512, sha384 and sha512_256 engines at a block boundary, from_midstate(engine.midstate(), engine.n_bytes_hashed()) resumes the same hash. The code violates this: from_midstate splits the midstate into 4-byte pieces and panics on every input.",
  "every midstate and every length", "No unit test exercises it; the claim is about all inputs.",
  ["src/sha512.rs: from_midstate", "src/sha384.rs: from_midstate", "src/sha512_256.rs: from_midstate"])
p("SipHash midstate resume (violated)",
  "from_midstate(engine.midstate(), engine.n_bytes_hashed()) resumes the same siphash engine. The code violates this: the length, the keys and the buffered tail are dropped. The exact behaviour is characterised.",
  "every engine state", "No unit test exercises it.", ["src/siphash24.rs: midstate, from_midstate"])
p("HMAC midstate resume (violated after the first block)",
  "from_midstate(engine.midstate(), engine.n_bytes_hashed()) resumes the same hmac engine. It does when no message block has been consumed, and does not afterwards, because the outer engine is given the inner engine's length.",
  "every key, every message prefix, every continuation", "No unit test exercises it.",
  ["src/hmac.rs: midstate, from_midstate"])
p("from_midstate panics exactly on misaligned lengths",
  "sha256, sha1 and ripemd160 from_midstate panic if and only if length is not a multiple of the block size; sha512/384/512_256 always panic; siphash24 never panics.",
  "every midstate and every length", "All lengths and all midstates.",
  ["src/sha256.rs: from_midstate", "src/sha1.rs: from_midstate", "src/ripemd160.rs: from_midstate", "src/sha512.rs: from_midstate", "src/siphash24.rs: from_midstate"])
p("fixed_time_eq decides equality",
  "cmp::fixed_time_eq(a,b) returns true if and only if a and b are equal, for slices of equal length.",
  "all pairs of equal-length byte slices", "Any single differing bit at any position must be detected.",
  ["src/cmp.rs: fixed_time_eq"])
p("fixed_time_eq panics exactly on different lengths",
  "cmp::fixed_time_eq(a,b) panics if and only if the lengths differ, and never indexes out of range.",
  "all pairs of byte slices", "All pairs of lengths.", ["src/cmp.rs: fixed_time_eq"])
p("fixed_time_eq touches memory independently of the contents",
  "The sequence of memory accesses (slice positions read, volatile reads and writes of the accumulator) and of executed operations of fixed_time_eq depends only on the common length, not on the bytes compared.",
  "all pairs of pairs of slices of the same length", "A hyperproperty over pairs of runs; timing tests only sample.",
  ["src/cmp.rs: fixed_time_eq"])
p("from_slice accepts exactly the right length",
  "from_slice(sl) is Ok with exactly the bytes sl when the length is the hash length, otherwise Err with expected = the hash length and got = sl.len().",
  "every hash type and every slice", "All slice lengths and contents.",
  ["src/internal_macros.rs: from_slice", "src/hmac.rs: from_slice", "src/sha256t.rs: from_slice", "src/sha256.rs: Midstate::from_slice"])
p("Byte-array conversions are lossless and every digest has the declared length",
  "from_byte_array/to_byte_array/as_byte_array/as_bytes/to_bytes/as_ref/index(..) all expose the same bytes and are mutually inverse; every digest returned by finalize has length LEN (the type's declared length); all_zeros is LEN zero bytes.",
  "every hash type, every byte array, every engine history", "All byte arrays; all histories.",
  ["src/internal_macros.rs: hash_type, hash_trait_impls", "src/hmac.rs: Hash", "src/sha256t.rs: Hash"])
p("Display then FromStr is the identity",
  "Parsing the Display (or LowerHex, UpperHex) text of any hash or sha256 midstate gives back the same hash.",
  "every hash type and every value", "2^160 to 2^512 values.",
  ["src/internal_macros.rs: hash_trait_impls, arr_newtype_fmt_impl", "src/hmac.rs: FromStr, Display", "src/sha256.rs: Midstate FromStr"])
p("FromStr accepts exactly hex strings of the right length",
  "from_str(s) succeeds if and only if s consists of exactly 2*LEN hexadecimal digits (either case), and then yields the bytes they denote; odd lengths, wrong lengths, non-hex characters and a 0x prefix are rejected.",
  "every string", "All strings.", ["src/internal_macros.rs: hash_trait_impls (FromStr)", "src/hmac.rs: FromStr"])
p("Textual forms are faithful",
  "Display/LowerHex print exactly 2*LEN lowercase hex digits, most significant nibble first in byte order, UpperHex the uppercase ones, Debug prefixes 0x; two hashes print equal if and only if they are equal.",
  "every hash type and every value", "All values.", ["src/internal_macros.rs: arr_newtype_fmt_impl", "src/hmac.rs: fmt impls"])
p("Serde round trip",
  "Deserializing what was serialized gives back the same hash, in human-readable (hex string) and in compact (raw bytes) formats.",
  "every hash type, every value, both format kinds", "All values.", ["src/serde_macros.rs: SerdeHash, serde_impl", "src/hmac.rs: Serialize, Deserialize"])
p("Serde rejects malformed input",
  "Human-readable deserialization succeeds exactly for strings of 2*LEN hex digits (also when delivered as bytes); compact deserialization succeeds exactly for byte strings of length LEN and yields those bytes; anything else is an error, never a panic.",
  "every string / byte string", "All inputs.", ["src/serde_macros.rs: HexVisitor, BytesVisitor"])
p("The JSON schema admits every serialized hash but does not characterise them (converse violated)",
  "Every human-readable serialization satisfies the published JSON schema (length exactly 2*LEN, pattern [0-9a-fA-F]+). The converse - a string satisfying the schema deserializes - is violated because the pattern is not anchored.",
  "every hash value / every string", "All values and strings.", ["src/internal_macros.rs: JsonSchema", "src/hmac.rs: JsonSchema", "src/sha256t.rs: JsonSchema"])
p("Hash ordering is the lexicographic total order",
  "cmp/partial_cmp/eq on hash values (derived, and hand-written for sha256t) form a total order consistent with equality, namely the lexicographic byte order, and it coincides with string comparison of the Display texts.",
  "all pairs and triples of hash values", "Order laws quantify over all pairs/triples.",
  ["src/internal_macros.rs: hash_type derives", "src/sha256t.rs: PartialEq, PartialOrd, Ord"])
p("io::Write feeds the hash completely",
  "write consumes the entire buffer and returns its length, flush changes nothing, neither ever errors; for any sequence of write, write_all, flush and io::copy with any schedule of short reads, the digest is the digest of the bytes written in order.",
  "every engine implementing Write, every schedule of writes, flushes and short reads", "All schedules.",
  ["src/impls.rs: impl_write, hmac Write impls"])
p("SipHash integer and byte interfaces agree",
  "hash_to_u64_with_keys(k0,k1,d) equals hash_with_keys(k0,k1,d).as_u64(); from_engine_to_u64 agrees with from_engine; from_u64/as_u64 are mutually inverse.",
  "all keys, data, engine states, all u64", "Two separate copies of the finalization code; all states.",
  ["src/siphash24.rs: from_engine_to_u64, hash_to_u64_with_keys, as_u64, from_u64"])
p("SipHash keys are preserved",
  "keys() of an engine built by with_keys(k0,k1) returns (k0,k1) after any sequence of inputs.",
  "all keys and input sequences", "All histories.", ["src/siphash24.rs: with_keys, keys, input"])
p("Engines are independent values",
  "In any interleaved history of creating, cloning, feeding, reading and finalizing many engines of any kinds, each finalization returns the standard digest of exactly the bytes fed to that engine and, before the clone point, its ancestors; operations on one engine never affect another.",
  "every interleaving of operations over any number of engines", "All histories/interleavings.",
  ["src/lib.rs: HashEngine: Clone + Default", "src/sha256.rs: Engine", "src/hmac.rs: Engine"])
p("SipHash unsafe loads stay in bounds and are byte-order independent",
  "Every unchecked load performed by siphash input stays inside the given slice, and the value loaded is the little-endian value on both little- and big-endian hosts.",
  "every engine state reachable, every slice, both byte orders", "Out-of-bounds unchecked reads are undefined behaviour that tests may not notice.",
  ["src/siphash24.rs: load_int_le, u8to64_le, input"])
p("HMAC key normalisation",
  "Two keys behave identically exactly as RFC 2104 prescribes: a key and the same key extended by zero bytes up to the block size give the same MACs, and a key longer than the block size gives the same MACs as its digest.",
  "every key, every message", "All keys.", ["src/hmac.rs: Engine::new"])
p("HMAC constructor panics exactly on oversized blocks",
  "hmac::Engine::<E>::new(key) panics if and only if E's block size exceeds 128 bytes, whatever the key, with or without debug assertions.",
  "every lawful engine, every key", "All user-defined engines.", ["src/hmac.rs: Engine::new"])
p("Collisions reduce to the compression function (Merkle-Damgard)",
  "If two different messages have the same digest under sha256 (sha1, ripemd160, sha512) then there are two different (chaining value, block) pairs on which the block function collides; i.e. buffering, padding and length encoding add no collisions.",
  "every pair of distinct messages below the length limit", "Quantifies over all pairs of messages.",
  ["src/sha256.rs: finalize", "src/sha1.rs: finalize", "src/ripemd160.rs: finalize", "src/sha512.rs: finalize"])
p("Tagged hashes are domain separated",
  "If two (tag, message) pairs differ but their tagged hashes agree, then the two pairs exhibit a collision of SHA-256 itself.",
  "every pair of tag/message pairs", "Quantifies over all pairs.", ["src/sha256t.rs: Engine", "src/sha256.rs: hash_tag"])
p("Resuming from a digest is length extension",
  "For sha256 and sha1, from_midstate(hash(m), padded length of m) fed with s finalizes to hash(m || padding(m) || s): midstate resumption is exact also when the midstate is a published digest.",
  "every m and s", "All messages.", ["src/sha256.rs: from_midstate, finalize", "src/sha1.rs: from_midstate, finalize"])
p("The numeric tables are the standard ones",
  "The initial values and round constants used by the engines are the ones the standards define: fractional parts of square/cube roots of the first primes (SHA-2), the SHA-512/t generation function (SHA-512/256), floor(2^30*sqrt/cbrt) constants and the rho/pi permutations (RIPEMD-160, SHA-1).",
  "every table entry", "A single wrong digit in a constant is caught only by matching an external definition.",
  ["src/sha256.rs: Default, software_process_block", "src/sha512.rs: Default, sha384, sha512_256, process_block", "src/sha1.rs", "src/ripemd160.rs"])
p("Indexing a hash is in-bounds byte access",
  "hash[i] returns byte i for i < LEN and panics otherwise; hash[a..b], hash[a..], hash[..b], hash[..] return the corresponding sub-slices and panic exactly when the range is out of bounds or reversed.",
  "every hash and every index/range", "All indices.", ["src/internal_macros.rs: Index impl", "src/hmac.rs: Index impls", "src/sha256.rs: Midstate Index"])
p("Every block is processed exactly once, in order",
  "Whatever the block function, after any inputs an engine has applied it to exactly the complete 64- (128-) byte blocks of the concatenated input, in order and once each, and finalize applies it to exactly the blocks of message || 0x80 || least zeros || length field; the buffering code is correct independently of any hash function.",
  "every block function, every list of slices, every starting block count and buffer content, lengths below the counter limit", "Vectors only see the final digest of particular hash functions and lengths.",
  ["src/internal_macros.rs: engine_input_impl", "src/sha256.rs: finalize", "src/sha512.rs: finalize"])
p("Left-over buffer bytes never matter",
  "Two engines with the same chaining value and counter whose buffers agree on the pending bytes (length mod block size) behave identically for every further sequence of inputs: same counters, same digest, same panics; bytes left over from earlier blocks never reach a digest.",
  "every pair of engine states (also unreachable ones), every continuation", "Needs two states that differ in bytes no test looks at.",
  ["src/internal_macros.rs: engine_input_impl", "src/sha1.rs: finalize", "src/ripemd160.rs: finalize"])
p("With overflow checks no digest is silently wrong",
  "In a build with overflow checks, whatever the amount of data, if construct / input* / finalize of any engine of the crate (including sha256t and nested HMAC) returns at all, the digest is the standard one: running out of counter range always panics and never corrupts.",
  "every engine kind, key, tag, list of slices, pointer width", "The interesting inputs are longer than 2^16, 2^32 or 2^61 bytes.",
  ["src/internal_macros.rs: engine_input_impl", "src/lib.rs: incomplete_block_len", "src/hmac.rs: Engine", "src/sha256t.rs: Engine"])
p("Digests do not depend on platform, build or chunking",
  "Two runs of the same engine kind on the same bytes, on targets of any pointer width and byte order, in any build (small-hash, SIMD or not, debug or release), cut into slices in any two ways, return the same digest whenever both return one and neither ran past its counter unchecked.",
  "every pair of configurations, every engine kind, every message", "Tests run on one platform at a time.",
  ["src/sha256.rs: process_block", "src/siphash24.rs: load_int_le", "src/internal_macros.rs: engine_input_impl"])
p("HMAC collisions reduce to the block function",
  "If the HMAC engine returns the same MAC for two different (normalised key, message) pairs, then two different calls of the block function made while computing the two inner hashes, or while computing the two outer hashes, return the same chaining value.",
  "every pair of keys and messages below the length limit; sha1, sha256, sha512, ripemd160", "Quantifies over all pairs of keys and messages.",
  ["src/hmac.rs: Engine::new, finalize", "src/sha256.rs: finalize"])
p("Inherent constructors equal the engine's result",
  "Hash::hash(data) and Hash::from_engine(engine) of every hash type return the digest of the standard for the bytes fed (MAC and tagged-hash types included), and Hash::hash is the same function as <Engine as HashEngine>::hash, panics included.",
  "every hash type, every engine origin, every list of slices below the length limit", "All messages and all types, including generic and user-defined tags.",
  ["src/internal_macros.rs: hash_type (engine, from_engine, hash)", "src/sha256t.rs: Hash::engine, from_engine, hash", "src/hmac.rs: Hash::engine, from_engine"])
p("core::hash::Hash agrees with Eq and is prefix-free",
  "Hash values that compare equal feed every Hasher identically; conversely the calls made (and the bytes a Hasher with the default write_usize sees) determine the value and the rest of the stream, so containers of hashes never confuse field boundaries.",
  "every hash type, every pair of values, every hasher, every continuation", "Quantifies over all hashers.",
  ["src/internal_macros.rs: derive(Hash)", "src/sha256t.rs: impl core::hash::Hash", "src/hmac.rs: derive(Hash)"])
p("FromSliceError reports the two lengths",
  "The Display text of FromSliceError is 'invalid slice length <got> (expected <len>)' with both lengths as decimal numerals without superfluous zeros, and the text determines the error.",
  "every error value", "All lengths.", ["src/lib.rs: FromSliceError, Display"])
p("UTF-8 check of the byte deserializer is exact",
  "The human-readable visit_bytes path reports 'not UTF-8' exactly when the bytes are not the UTF-8 encoding of any sequence of Unicode scalar values, and otherwise fails with exactly the error of FromStr.",
  "every byte string and every hash type", "All byte strings, including overlong forms and surrogates.",
  ["src/serde_macros.rs: HexVisitor::visit_bytes"])
p("SipHash state transitions lose no information",
  "The SipRound, the c- and d-rounds and the absorption of any word are permutations of the four-word state; therefore engines with different keys (or midstates) fed the same slices always have different internal states.",
  "every state, word, pair of keys, list of slices", "2^256 states.", ["src/siphash24.rs: compress!, State::c_rounds, d_rounds, HashEngine::input"])
p("Rounds are permutations; SHA block functions have exactly one fixed point per block",
  "For every block, what the block function of SHA-1 and the SHA-2 functions does is to add to the chaining value, word by word, the image of the chaining value under a permutation; and so it has, for every block, exactly one chaining value that it maps to itself. Each of the two lines of RIPEMD-160 permutes the chaining values, for all message words.",
  "every block of every engine (siphash: C58)", "Quantifies over all blocks and all chaining values.",
  ["src/sha1.rs: process_block", "src/sha256.rs: process_block", "src/sha512.rs: process_block"])
p("Every engine, every build, every length: the exact result",
  "For every engine (block-function engines, keyed SipHash, tagged, HMAC nested to any depth, any key) the outcome of construct, feed, finalize is given by one function of the concatenated message: with overflow checks the standard digest if all byte and bit counts fit their integer types and otherwise the overflow panic, without them a digest with wrapped counts; builds without overflow checks never panic.",
  "every target width, both overflow settings, every engine origin, every list of slices", "Covers lengths beyond 2^32 and 2^61 bytes and unbounded nesting, which no test can reach.",
  ["src/hmac.rs: Engine::new, input, finalize", "src/sha256t.rs: Engine", "src/internal_macros.rs: engine_input_impl", "src/siphash24.rs: HashEngine::input, finalize", "src/sha256.rs: finalize"])
p("User-defined tags hash from their own starting point",
  "For any Tag implementation whose engine() is a SHA-256 engine made by from_midstate(m, n) or the default one, possibly fed some bytes already, the tagged hash is the Merkle-Damgard hash that starts at chaining value m after n bytes and continues with those bytes and the data, with the exact overflow behaviour.",
  "every midstate, aligned count, prefix and message; every build", "Tag is a public trait: all implementations are covered.",
  ["src/sha256t.rs: Tag, Engine<T>, HashEngine for Engine<T>", "src/sha256.rs: from_midstate"])
p("Whole programs behave as specified",
  "Any program over the complete engine API (new, hmac new, with_keys, from_midstate, clone, input, n_bytes_hashed, midstate, keys, finalize, to u64, hash, hash_byte_chunks) on any number of engines of any type shows exactly the results, and ends in exactly the panic, of an abstract machine whose engines are a starting point and the bytes fed since; also when every operation is chosen from the results seen so far.",
  "every program, every interleaving, every engine type including nested HMAC, every build", "Unboundedly many programs and engines.",
  ["src/lib.rs: trait HashEngine", "src/hmac.rs: Engine", "src/siphash24.rs: Engine", "src/sha256t.rs: Engine", "src/sha256.rs: Engine", "src/sha512.rs: Engine"])
p("Whole programs: the only panics",
  "A program over the engine API panics only by an arithmetic overflow check in a build that has them, or because a from_midstate it calls refuses its length or its (SHA-512 family) type; never by an index, an unreachable! or an access outside a slice. Without overflow checks and without a refused from_midstate every program runs to the end.",
  "every program and every build", "Absence of panics over all executions.",
  ["src/lib.rs: trait HashEngine", "src/siphash24.rs: load_int_le!, u8to64_le", "src/internal_macros.rs: engine_input_impl", "src/hmac.rs: Engine::new"])
p("Cutting an input in two is invisible to the rest of the program",
  "Replacing one input(d1 ++ d2) by input(d1); input(d2) anywhere in any program changes no result the program can see later: midstates, counts, digests of this engine, its clones and all others, and the panic if there is one.",
  "every program, every position, every cut, every engine type and build", "All programs and positions.",
  ["src/internal_macros.rs: engine_input_impl", "src/siphash24.rs: HashEngine::input", "src/hmac.rs: HashEngine::input"])
p("Formatting under every formatter option",
  "For every hash and every combination of width, fill character, alignment, +, # and 0, Display, LowerHex and UpperHex write the hex digits preceded by the sign and 0x asked for, padded to max(width, natural length) characters on the side asked for (zeros between 0x and the digits for the 0 flag); Debug ignores the caller's options and writes 0x and the digits; such a text is parsed back to the same hash when nothing was added and refused otherwise, never parsed as another hash.",
  "every hash value, width, Unicode fill character, alignment and flag", "Unbounded widths, 1.1 million fill characters, all flag combinations, all hashes.",
  ["src/internal_macros.rs: arr_newtype_fmt_impl", "src/internal_macros.rs: FromStr impl"])
p("SHA-1, SHA-2 and RIPEMD-160 are their standards read on bit strings",
  "The digests of the SHA-1, SHA-256, SHA-384, SHA-512 and SHA-512/256 engines, as bit strings, are exactly what FIPS 180-4 defines when messages, words and digests are bit strings: padding by one 1 bit and the least number of 0 bits, parsing into groups of bits, rotations and shifts that move bits, bitwise functions, addition modulo 2^w. The digests of the RIPEMD-160 engine are those of the pseudo-code of the RIPEMD-160 paper with its printed tables, on bit strings.",
  "every message that fits the counters, cut into slices in any way, every build", "All messages; ties the octet and integer arithmetic of code and specification to the bits of the standard.",
  ["src/sha1.rs: process_block", "src/sha256.rs: software_process_block, finalize", "src/sha512.rs: process_block, finalize", "src/sha384.rs", "src/sha512_256.rs"])
p("Hashing reveals only lengths",
  "The branches taken and the memory addresses accessed (in input, key, pads, buffer and the arrays of the block functions) by a run of any engine - construction with a secret key, any sequence of input calls, finalize - are determined by the engine type, the key length and the list of input lengths alone, and so is whether and how it panics. A block function takes the same branches and uses the same indices for every chaining value and block. The recording version computes the digest of the plain model.",
  "every pair of runs: all keys of one length, all messages of the same slice lengths, every engine type including nested HMAC and SipHash with any keys, every build", "A statement about pairs of executions over all secrets.",
  ["src/internal_macros.rs: engine_input_impl", "src/hmac.rs: Engine::new, input, finalize", "src/siphash24.rs: HashEngine::input, u8to64_le, load_int_le!", "src/sha256.rs: finalize", "src/sha512.rs: finalize", "src/sha1.rs: finalize", "src/ripemd160.rs: finalize"])
p("Exact amount of work, linear in the input",
  "A run that returns a digest calls the block function exactly ceil((n + 1 + f) / B) times for an n-byte message (f the size of the length field, B the block), SipHash absorbs floor(n / 8) words and makes two final calls, HMAC the sum for its two hashes plus that of a long key; however the message was cut and also when the counter wraps. m more bytes cost at most m / 8 + 1 more calls.",
  "every engine type including nested HMAC, every key, every message and cutting, every build", "All lengths, unbounded nesting.",
  ["src/internal_macros.rs: engine_input_impl", "src/sha256.rs: finalize", "src/sha512.rs: finalize", "src/siphash24.rs: HashEngine::input", "src/hmac.rs: Engine"])
p("Reference casts between arrays and hashes are views in place",
  "For every hash type made by hash_type! and for sha256t::Hash, under every layout the compiler may choose, from_bytes_ref and from_bytes_mut applied to a reference to LEN bytes are defined, give a hash at the same address, reading it gives exactly those bytes, assigning through it changes exactly those bytes, and as_byte_array leads back to the same reference. For hmac::Hash<N>, which lacks repr(transparent), the cast is defined exactly if the layout has size N and the address is aligned for it; the language allows layouts for which it is undefined for every array.",
  "every hash type, every allowed layout, every memory, address and new value", "Undefined behaviour and compiler layout choices do not show in tests with one compiler.",
  ["src/internal_macros.rs: from_bytes_ref, from_bytes_mut, as_byte_array", "src/sha256t.rs: from_bytes_ref, from_bytes_mut", "src/hmac.rs: from_bytes_ref, from_bytes_mut"])
p("The translated source text behaves as specified in every program",
  "The engine API as translated mechanically from the source text (tools/rs2v.py; no hand-written model functions) shows, in every program over the complete API on any number of engines of any type, exactly the results and the final panic of the abstract machine of the specification; also when every operation is chosen from the results seen so far.",
  "every program, every interleaving, every engine type including nested HMAC, every build", "Unboundedly many programs; also guards against mistakes in the hand-written model.",
  ["src/lib.rs: trait HashEngine", "src/internal_macros.rs: engine_input_impl", "src/hmac.rs: Engine", "src/siphash24.rs: Engine", "src/sha256t.rs: Engine", "src/sha256.rs: Engine", "src/sha512.rs: Engine", "src/sha1.rs: Engine", "src/ripemd160.rs: Engine"])
p("The translated source text computes the standards",
  "The translated text of Hash::hash of each algorithm, of hash_byte_chunks for every engine type (HMAC and tagged included), of SipHash with keys and of sha256 const_hash returns exactly the digest of the standard.",
  "every message that fits the counters, every cutting into chunks, every key and every build", "All messages and keys.",
  ["src/lib.rs: hash, hash_byte_chunks", "src/siphash24.rs: hash_with_keys, hash_to_u64_with_keys", "src/sha256.rs: const_hash", "src/hmac.rs: Engine"])
p("The translated fixed_time_eq decides equality",
  "The translated text of fixed_time_eq returns true exactly if the two slices are equal when their lengths agree, and panics by its assertion when they do not.",
  "every pair of slices", "All pairs of slices of every length.",
  ["src/cmp.rs: fixed_time_eq"])
p("Two independent transcriptions of the code agree",
  "Every method of every engine type, as translated from the source text, is equal to the hand-written model, panics included; HMAC over any agreeing pair of engines agrees again, its key set-up included; so do SipHash engines with keys and the keyed one-shot functions. Each translated block function (software, small-hash and SHA-NI text) is the compression function of the standard for every chaining value and block.",
  "every engine type, every well-typed state, every slice, every build", "All states and blocks of straight-line code of thousands of operations.",
  ["src/sha1.rs: process_block", "src/sha256.rs: process_block, software_process_block, process_block_simd_x86_intrinsics", "src/sha512.rs: process_block", "src/ripemd160.rs: process_block", "src/siphash24.rs: HashEngine::input", "src/hmac.rs: Engine::new", "src/internal_macros.rs: engine_input_impl"])

p("The translated value types",
  "As translated from the source text, for every hash type and sha256::Midstate: from_slice accepts exactly the slices of the digest length and otherwise reports both lengths; from_str accepts exactly the hex texts of twice that length and reports the first defect otherwise; all conversions keep the bytes; all_zeros and Default are zeros of that length; LEN is that length; indexing gives exactly the asked part or panics; sha256t::Hash compares as its bytes; engine, from_engine and hash of each type give the standard digests.",
  "every type (hmac::Hash<N> for every N, every tag), every slice, text, index, hash, message and build", "All slices, texts and indices for an infinite family of types.",
  ["src/internal_macros.rs: hash_type!, hash_trait_impls!, as_ref_impl!", "src/hmac.rs: Hash", "src/sha256t.rs: Hash", "src/sha256.rs: Midstate", "src/lib.rs: FromSliceError"])
p("The translated Write implementations",
  "As translated from src/impls.rs: any program of write, write_all, write_vectored, flush, io::copy from a reader and direct input on any engine that implements Write (both impls of hmac::Engine) reports the counts it should, feeds exactly the bytes offered, ends in the state that inputs of the same bytes give (panics included), and its digest is that of the standard.",
  "every program, every reader, every engine type with a Write impl, every key and build", "All programs and readers.",
  ["src/impls.rs: impl_write!, impl Write for hmac::Engine"])

p("The translated text reveals only lengths",
  "The engine API as translated mechanically from the source text, in a mode that records every branch, every array and slice position read or written, every loop test, and the operands of every multiplication, every division and shift by a non-literal: for two runs that construct an engine of the same type (keys of equal length, any SipHash keys), do the same sequence of feeding, taking the midstate and resuming from it, with slices of equal lengths, the records are equal and so are the kind and the length of the results. Recording changes no result. Each block function (software, small-hash and SHA-NI text) has one record for all chaining values and blocks.",
  "every pair of runs, all keys and messages, every engine type including nested HMAC, every build", "A statement about pairs of executions over all secrets; tests see neither branches nor indices.",
  ["src/sha1.rs: process_block, finalize", "src/sha256.rs: process_block, software_process_block, process_block_simd_x86_intrinsics, finalize", "src/sha512.rs: process_block, finalize", "src/ripemd160.rs: process_block, finalize", "src/siphash24.rs: HashEngine::input, u8to64_le", "src/hmac.rs: Engine::new, input, finalize", "src/internal_macros.rs: engine_input_impl"])
p("The translated fixed_time_eq reads everything, always",
  "The record of the translated text of fixed_time_eq on two slices of n bytes is, whatever their contents, one test of the lengths, then for each index below n in turn one read of either slice, and nothing else; for slices of different lengths too the record depends on the lengths alone. Recording changes no result.",
  "every pair of slices", "A statement about all pairs of executions of every length.",
  ["src/cmp.rs: fixed_time_eq"])

p("The translated formatting impls",
  "As translated from the source text: LowerHex, UpperHex and Display of every macro-made hash type, of sha256t::Hash and of sha256::Midstate write, under every width, fill, alignment, +, 0 and # option, exactly the padded hexadecimal text asked for and never panic; Debug always writes 0x and the lower-case digits, whatever the options; hmac::Hash does the same without options or with #; Display text and upper-case text parse back to the value; the text of FromSliceError names the two lengths in the right places.",
  "every hash type and value, every formatter option, every pair of lengths", "All values under all combinations of options.",
  ["src/internal_macros.rs: arr_newtype_fmt_impl!", "src/hmac.rs: fmt impls", "src/lib.rs: Display for FromSliceError"])
p("The translated serde code",
  "As translated from src/serde_macros.rs and the impls: for every deserializer, also one that hands over different values when asked for different ones, deserialize asks for a string exactly when the format is human readable and for bytes otherwise, accepts exactly the right texts or byte strings, and reports precisely the defect otherwise (constructor, unexpected value, expectation text); it never panics. serialize writes the lower-case hex text or the bytes, and reading that back gives the value.",
  "every hash type, every deserializer and every value it can hand over, every build", "All inputs of all kinds for every type; the error paths are not tested at all.",
  ["src/serde_macros.rs: HexVisitor, BytesVisitor, SerdeHash, serde_impl!", "src/hmac.rs: impl SerdeHash, Serialize, Deserialize"])
p("The translated JSON schemas",
  "As translated from the source text, with the pattern text read as a regular expression: the schema of every type of fewer than 2^31 bytes admits exactly the strings of twice the digest length that contain a hex digit; so it admits every text serialize writes, but also texts that cannot be read (refuted converse), is missing or wrong for larger hmac::Hash (refuted), and all types share one schema name (refuted uniqueness).",
  "every type with a schema, every string, every build", "All strings and all N.",
  ["src/internal_macros.rs: JsonSchema", "src/hmac.rs: JsonSchema", "src/sha256t.rs: JsonSchema"])
p("The translated core::hash::Hash of tagged hashes",
  "As translated from the source text, two sha256t::Hash values compare equal exactly if they make every Hasher do the same, and the calls of Hasher determine the value whatever is hashed after it.",
  "every pair of values, every Hasher", "All hashers and values.",
  ["src/sha256t.rs: core::hash::Hash, PartialEq"])

p("The declared structs and their reference casts",
  "As translated from the source text (struct declarations with their attributes, from_bytes_ref, from_bytes_mut and the functions that return references to the bytes): the compiler accepts the declarations; for every macro-made hash type and sha256t::Hash, under every layout the Rust reference allows for the declaration, either cast of a reference to a digest-length array is defined and gives a reference to the same place, every reference to the bytes leads back to it, and a value written through it changes exactly those bytes; for every type the references to the bytes stay inside the value. For hmac::Hash<N>, declared without repr(transparent), the casts are defined exactly if the layout has size N and the address is aligned, and an allowed layout makes them undefined for every array.",
  "every hash type, every N and tag, every allowed layout, every address, memory and new value", "Undefined behaviour and compiler layout choices do not show in tests with one compiler.",
  ["src/internal_macros.rs: hash_type!", "src/hmac.rs: struct Hash, from_bytes_ref, from_bytes_mut", "src/sha256t.rs: struct Hash, from_bytes_ref, from_bytes_mut", "src/sha256.rs: struct Midstate"])
p("Derived and written comparison, hash and default of every type",
  "With the derives and impls as they stand in the source text: for every hash type and sha256::Midstate == is equality of bytes, cmp is the lexicographic order of the bytes and total, partial_cmp agrees with it, equal values and only these make every Hasher do the same, the calls of Hasher determine the value whatever follows, clone gives the value and Default, where there is one, zeros of the digest length. Only hashes and midstates are Copy, so no engine can be used after it was consumed.",
  "every type, every pair or triple of values, every Hasher", "All values and hashers for an infinite family of types.",
  ["src/internal_macros.rs: hash_type! (derive)", "src/hmac.rs: derive on Hash", "src/sha256.rs: derive on Midstate", "src/sha256t.rs: impl PartialEq, Ord, Hash, Default, Clone"])
p("Debug of a SipHash engine shows the key",
  "siphash24::Engine derives Debug: its {:?} text is the decimal numerals of k0, k1 and all other fields between fixed texts, and both it and the {:#?} text determine the whole engine, so the key cannot stay hidden from a log (refuted secrecy). No other engine of the crate implements Debug. The derived Debug of FromSliceError names both lengths.",
  "every engine state, every pair of lengths", "All states; the tests never format an engine.",
  ["src/siphash24.rs: derive(Debug) on Engine and State", "src/lib.rs: derive(Debug) on FromSliceError"])

p("The unsafe SHA-256 block function runs only where it may",
  "Whatever the features, target and CPU: process_block never executes an instruction the CPU lacks and never calls a function the build does not have. The detection expression holds exactly if every extension in the #[target_feature] attribute is there, every intrinsic in the body belongs to a declared extension, the fast path is taken exactly with std on x86 or x86_64 with all of them, and on either path the result is the compression function of the standard.",
  "every build (features, target), every CPU, every engine state and block", "CI machines have all the extensions: a missing check shows only on a CPU that lacks exactly that one.",
  ["src/sha256.rs: process_block, process_block_simd_x86_intrinsics (cfg, target_feature, intrinsics)"])
p("Conditional compilation: every name is defined once, and which feature sets resolve",
  "With every item of the crate, the cfg attributes it stands under and the names it needs as they stand in the source text: two definitions of one name never meet and exactly one of them is compiled in every build. All names resolve exactly if alloc and schemars are used only with std (or in tests) and tests are not built for wasm32. For the features as Cargo resolves them: exactly if std or default is asked for, or neither alloc nor schemars. So the README's 'any combination of features' is refuted (--no-default-features --features alloc has no Vec). bitcoin_io::Write is implemented exactly if default, std, io or bitcoin-io is asked for, std::io::Write exactly with default or std.",
  "every set of features, every target architecture, every test/bench/fuzz setting", "Exponentially many feature sets; CI tries a few.",
  ["src/*.rs: cfg attributes", "src/lib.rs: no_std, extern crate", "Cargo.toml: features, dependencies", "README.md: Minimum Supported Rust Version"])

p("The build for fuzzing (violated: it does not compile)",
  "In every build without hashes_fuzz all variables of the engines' functions are declared; with it exactly one is not: e in sha256's finalize, so that build is rejected (refuted). With e read as self, for every message in any pieces: each digest is one octet followed by zeros, namely the exclusive or of all octets (SHA-256: 1 in place of 0; the SHA-512 family: complemented; RIPEMD-160: also with the length; SHA-1: of the padded message); SipHash takes only the whole words and no finalization; HMAC is RFC 2104 over these. SHA-256 is never all zero and differs from SHA-512/256 on every message, as the comments intend. Permuting message or key changes no digest or MAC, a partial last word does not change SipHash, and tags and midstates have no effect. Midstate resume, const_hash = hash and to_u64 = as_u64, which hold in the ordinary build, are refuted for it.",
  "every algorithm, every message, key and chunking, every target", "The build cannot be run at all; in it, all messages.",
  ["src/*.rs: #[cfg(hashes_fuzz)]", "src/internal_macros.rs: engine_input_impl!", "src/sha256.rs: finalize, midstate", "src/siphash24.rs: finalize"])

p("Which types have which traits",
  "From the structs, derives and impls as they stand in the source (macros expanded), the rules of derive, of auto traits and of the standard library: in every build, and for any types of other crates, the set of traits of each public type is exactly a documented list. Every fixed-size hash is Copy, ordered, hashable, read from and written as hex, viewed as a slice and an array of its size, and with the features has serde and schema impls; the HashEngine types are exactly the seven engines, the tagged engine of a Tag, HMAC over such a type and engines of other crates; engines are Clone and Default, and only siphash24's has Debug. sha256t's types are Send and Sync exactly if the tag is (PhantomData<T>); hmac::Midstate has no trait but these, not even Clone. The digest of every engine is an array of the size of its hash type, for HMAC that of the engine it is over; a tag has to be Clone and nothing more. The compiler's conditions hold: what a trait implies (Ord: Eq, HashEngine: Clone and an ordered Digest, Tag: Clone, Copy: Copy fields) holds wherever the trait does, derives find the trait in every field, all types are well-formed, no two impls meet and every impl is for a type of the crate.",
  "every build, every type (also of other crates) as tag, engine or size, every trait", "A test can only use an impl that is there, for one type at a time; that an impl is absent or bounded too tightly or loosely for some parameter shows in no run.",
  ["src/*.rs: derive, impl", "src/internal_macros.rs: hash_type!, hash_trait_impls!", "src/impls.rs: Write", "src/sha256t.rs: Tag, Hash, Engine", "src/hmac.rs: Hash, Engine, Midstate", "src/lib.rs: HashEngine"])

p("Engines are opaque",
  "From the fields and functions of the source with their visibility (macros expanded): the fields of every struct are private, but those of the three midstate structs and of FromSliceError. The public functions with exclusive access to an engine are exactly HashEngine::input and write and flush of the Write impls, and those returning one exactly the documented constructors (Hash::engine, Default, from_midstate, siphash24's new and with_keys, HMAC's new, the tag's). The only exclusive references handed out are those of from_bytes_mut. So a sequence of such calls, as C62 and C70 have them, is all a user can do to an engine.",
  "every field, every public function, every engine type", "That no other way in exists shows in no run: a test can only use a function that is there.",
  ["src/*.rs: struct fields, fn signatures", "src/internal_macros.rs: hash_type!, engine_input_impl!"])

here = os.path.dirname(os.path.abspath(__file__))
with open(os.path.join(here, "..", "properties.jsonl"), "w") as f:
    for q in P: f.write(json.dumps(q) + "\n")
print(len(P))
