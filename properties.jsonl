{"id": "C01", "title": "SHA-256 computes FIPS 180-4 SHA-256", "statement": "Creating a sha256 engine, feeding it any sequence of byte slices and finalizing returns exactly the FIPS 180-4 SHA-256 digest of their concatenation (also for sha256::Hash::hash and HashEngine::hash_byte_chunks).", "quantifier": "every list of byte slices whose total length fits the counter; every build configuration (usize width, overflow checks, debug assertions, small-hash, SIMD or software path)", "why_tests_cant": "Test vectors cover a handful of messages; the claim is about every message of every length, including every position of the message end relative to a block boundary.", "anchors": ["src/sha256.rs: Engine, finalize, process_block", "src/internal_macros.rs: engine_input_impl, hash_type"]}
{"id": "C02", "title": "SHA-1 computes FIPS 180-4 SHA-1", "statement": "Feeding a sha1 engine any sequence of byte slices and finalizing returns exactly the FIPS 180-4 SHA-1 digest of their concatenation.", "quantifier": "every list of byte slices whose total length fits the counter; every build configuration", "why_tests_cant": "Test vectors cover a handful of messages; the claim is about every message of every length, including every position of the message end relative to a block boundary.", "anchors": ["src/sha1.rs: Engine, finalize, process_block"]}
{"id": "C03", "title": "SHA-512 computes FIPS 180-4 SHA-512", "statement": "Feeding a sha512 engine any sequence of byte slices and finalizing returns exactly the FIPS 180-4 SHA-512 digest of their concatenation.", "quantifier": "every list of byte slices whose total length fits the counter; every build configuration", "why_tests_cant": "Test vectors cover a handful of messages; the claim is about every message of every length, including every position of the message end relative to a block boundary.", "anchors": ["src/sha512.rs: Engine, finalize, process_block"]}
{"id": "C04", "title": "SHA-384 computes FIPS 180-4 SHA-384", "statement": "Feeding a sha384 engine any sequence of byte slices and finalizing returns exactly the FIPS 180-4 SHA-384 digest (48 bytes) of their concatenation.", "quantifier": "every list of byte slices whose total length fits the counter; every build configuration", "why_tests_cant": "Test vectors cover a handful of messages; the claim is about every message of every length, including every position of the message end relative to a block boundary.", "anchors": ["src/sha384.rs: Engine, finalize", "src/sha512.rs: Engine::sha384"]}
{"id": "C05", "title": "SHA-512/256 computes FIPS 180-4 SHA-512/256", "statement": "Feeding a sha512_256 engine any sequence of byte slices and finalizing returns exactly the FIPS 180-4 SHA-512/256 digest (32 bytes) of their concatenation.", "quantifier": "every list of byte slices whose total length fits the counter; every build configuration", "why_tests_cant": "Test vectors cover a handful of messages; the claim is about every message of every length, including every position of the message end relative to a block boundary.", "anchors": ["src/sha512_256.rs: Engine, finalize", "src/sha512.rs: Engine::sha512_256"]}
{"id": "C06", "title": "RIPEMD-160 computes the published RIPEMD-160", "statement": "Feeding a ripemd160 engine any sequence of byte slices and finalizing returns exactly the RIPEMD-160 digest (Dobbertin, Bosselaers, Preneel) of their concatenation.", "quantifier": "every list of byte slices whose total length fits the counter; every build configuration", "why_tests_cant": "Test vectors cover a handful of messages; the claim is about every message of every length, including every position of the message end relative to a block boundary.", "anchors": ["src/ripemd160.rs: Engine, finalize, process_block!"]}
{"id": "C07", "title": "SipHash computes SipHash-2-4 under every key", "statement": "For all keys k0, k1, feeding Engine::with_keys(k0,k1) any sequence of byte slices and finalizing returns the 8 little-endian bytes of SipHash-2-4(k0,k1) of their concatenation; hash_with_keys agrees.", "quantifier": "all 2^128 keys, every list of byte slices, both host byte orders", "why_tests_cant": "Test vectors cover a handful of messages; the claim is about every message of every length, including every position of the message end relative to a block boundary. The tail buffering has a separate path for every (bytes already buffered, slice length) pair.", "anchors": ["src/siphash24.rs: Engine::with_keys, input, finalize, u8to64_le, load_int_le"]}
{"id": "C08", "title": "HMAC is RFC 2104 over every engine", "statement": "hmac::Engine::<E>::new(key), any sequence of inputs, then finalize, returns H((K^opad) || H((K^ipad) || message)) where K is the key (hashed first if longer than the block size) zero-padded to the block size, for every engine E that computes H, in particular all eight engines of the crate and hmac engines themselves.", "quantifier": "every key length, every message and chunking, every lawful hash engine with block size at most 128", "why_tests_cant": "The key-length boundary, the padding and the underlying engine vary independently; tests use one engine and six key/message pairs.", "anchors": ["src/hmac.rs: Engine::new, input, finalize"]}
{"id": "C09", "title": "Tagged SHA-256 is SHA256(SHA256(tag)||SHA256(tag)||msg)", "statement": "A sha256t engine whose tag starts from Midstate::hash_tag(tag) at length 64 returns, for any sequence of inputs, SHA256(SHA256(tag) || SHA256(tag) || message).", "quantifier": "every tag string, every message and chunking", "why_tests_cant": "Test vectors cover a handful of messages; the claim is about every message of every length, including every position of the message end relative to a block boundary.", "anchors": ["src/sha256t.rs: Engine, Tag, Hash::hash", "src/sha256.rs: Midstate::hash_tag"]}
{"id": "C10", "title": "Splitting the input never matters", "statement": "For every engine, two sequences of input calls (empty slices included) whose concatenations are equal lead to the same digest, the same midstate and the same n_bytes_hashed; hash_byte_chunks equals hash of the concatenation.", "quantifier": "every engine, every pair of splittings of every message", "why_tests_cant": "There are exponentially many splittings of each message; tests try whole-message and byte-by-byte.", "anchors": ["src/internal_macros.rs: engine_input_impl", "src/siphash24.rs: input", "src/lib.rs: hash_byte_chunks"]}
{"id": "C11", "title": "n_bytes_hashed counts the input", "statement": "After any sequence of inputs n_bytes_hashed equals the starting length plus the number of bytes fed (modulo 2^usize-width when overflow checks are off); for an hmac engine it equals the block size plus the bytes fed, i.e. it does not report only the user's bytes.", "quantifier": "every engine, every input sequence", "why_tests_cant": "Ranges over all histories and over counter wrap-around, unreachable by a test that must feed 2^32 bytes.", "anchors": ["src/internal_macros.rs: engine_input_impl", "src/hmac.rs: n_bytes_hashed", "src/lib.rs: n_bytes_hashed"]}
{"id": "C12", "title": "input and finalize never panic below the counter limit", "statement": "As long as the padded length stays below 2^usize-width and the message below 2^61 bytes, input and finalize complete without any arithmetic overflow, out-of-range slice, failed debug assertion or failed expect.", "quantifier": "every engine, every input sequence below the limit, every build configuration", "why_tests_cant": "Absence of a panic must hold at every message length and split, not just the sampled ones.", "anchors": ["src/internal_macros.rs: engine_input_impl", "src/sha256.rs: finalize", "src/siphash24.rs: input"]}
{"id": "C13", "title": "Counter overflow behaves exactly as specified", "statement": "With overflow checks on, feeding bytes past 2^usize-width panics; with checks off the counter wraps and the digest is the Merkle-Damgard hash whose length field is 8*(length mod 2^usize-width) mod 2^64 - so on 32-bit targets digests of 4 GiB or longer inputs are not the standard ones.", "quantifier": "every input sequence crossing the limit, every usize width", "why_tests_cant": "A test would have to feed 2^32 or 2^64 bytes.", "anchors": ["src/internal_macros.rs: engine_input_impl", "src/sha256.rs: finalize"]}
{"id": "C14", "title": "The SHA-NI code path equals the software path", "statement": "For every chaining value and every 64-byte block, the x86 intrinsics implementation of the SHA-256 block function produces the same new chaining value as the portable implementation (and as FIPS 180-4).", "quantifier": "all 2^256 chaining values x 2^512 blocks", "why_tests_cant": "CPU-dependent path; the input space cannot be enumerated and CI machines may lack or always have the feature.", "anchors": ["src/sha256.rs: process_block, process_block_simd_x86_intrinsics, software_process_block"]}
{"id": "C15", "title": "The small-hash feature never changes a digest", "statement": "For SHA-256, SHA-512 and RIPEMD-160, building with or without the small-hash feature gives the same block function on every chaining value and block, hence the same digests.", "quantifier": "all chaining values and blocks", "why_tests_cant": "Feature combinations times all inputs.", "anchors": ["src/sha256.rs: small_hash, fast_hash", "src/sha512.rs: small_hash, fast_hash", "src/ripemd160.rs: small_hash, round"]}
{"id": "C16", "title": "const_hash equals hash", "statement": "sha256::Hash::const_hash(bytes) equals sha256::Hash::hash(bytes), the FIPS 180-4 digest, for every byte slice.", "quantifier": "every byte slice below the length limit", "why_tests_cant": "The unit test covers lengths 0..256 with one content each.", "anchors": ["src/sha256.rs: Hash::const_hash, Midstate::const_hash"]}
{"id": "C17", "title": "hash_tag is the midstate of the doubled tag hash", "statement": "Midstate::hash_tag(tag) equals the midstate of a fresh sha256 engine after input SHA256(tag) || SHA256(tag).", "quantifier": "every tag byte string", "why_tests_cant": "Test vectors cover a handful of messages; the claim is about every message of every length, including every position of the message end relative to a block boundary.", "anchors": ["src/sha256.rs: Midstate::hash_tag, const_hash"]}
{"id": "C18", "title": "SHA-256 midstate resume", "statement": "For a sha256 engine that has consumed a whole number of blocks, from_midstate(engine.midstate(), engine.n_bytes_hashed()) is indistinguishable from the engine under every continuation (inputs, midstate, n_bytes_hashed, finalize).", "quantifier": "every block-aligned history and every continuation", "why_tests_cant": "Histories and continuations are unbounded.", "anchors": ["src/sha256.rs: midstate, from_midstate (trait and inherent)"]}
{"id": "C19", "title": "SHA-1 midstate resume", "statement": "For a sha1 engine that has consumed a whole number of blocks, from_midstate(engine.midstate(), engine.n_bytes_hashed()) is indistinguishable from the engine under every continuation.", "quantifier": "every block-aligned history and every continuation", "why_tests_cant": "Histories and continuations are unbounded.", "anchors": ["src/sha1.rs: midstate, from_midstate"]}
{"id": "C20", "title": "RIPEMD-160 midstate resume (violated)", "statement": "For a ripemd160 engine that has consumed a whole number of blocks, from_midstate(engine.midstate(), engine.n_bytes_hashed()) resumes the same hash. The code violates this: midstate writes little-endian words, from_midstate reads them big-endian.", "quantifier": "every block-aligned history", "why_tests_cant": "No unit test exercises it; the claim is about all histories.", "anchors": ["src/ripemd160.rs: midstate, from_midstate"]}
{"id": "C21", "title": "SHA-512 family midstate resume (violated)", "statement": "For sha512, sha384 and sha512_256 engines at a block boundary, from_midstate(engine.midstate(), engine.n_bytes_hashed()) resumes the same hash. The code violates this: from_midstate splits the midstate into 4-byte pieces and panics on every input.", "quantifier": "every midstate and every length", "why_tests_cant": "No unit test exercises it; the claim is about all inputs.", "anchors": ["src/sha512.rs: from_midstate", "src/sha384.rs: from_midstate", "src/sha512_256.rs: from_midstate"]}
{"id": "C22", "title": "SipHash midstate resume (violated)", "statement": "from_midstate(engine.midstate(), engine.n_bytes_hashed()) resumes the same siphash engine. The code violates this: the length, the keys and the buffered tail are dropped. The exact behaviour is characterised.", "quantifier": "every engine state", "why_tests_cant": "No unit test exercises it.", "anchors": ["src/siphash24.rs: midstate, from_midstate"]}
{"id": "C23", "title": "HMAC midstate resume (violated after the first block)", "statement": "from_midstate(engine.midstate(), engine.n_bytes_hashed()) resumes the same hmac engine. It does when no message block has been consumed, and does not afterwards, because the outer engine is given the inner engine's length.", "quantifier": "every key, every message prefix, every continuation", "why_tests_cant": "No unit test exercises it.", "anchors": ["src/hmac.rs: midstate, from_midstate"]}
{"id": "C24", "title": "from_midstate panics exactly on misaligned lengths", "statement": "sha256, sha1 and ripemd160 from_midstate panic if and only if length is not a multiple of the block size; sha512/384/512_256 always panic; siphash24 never panics.", "quantifier": "every midstate and every length", "why_tests_cant": "All lengths and all midstates.", "anchors": ["src/sha256.rs: from_midstate", "src/sha1.rs: from_midstate", "src/ripemd160.rs: from_midstate", "src/sha512.rs: from_midstate", "src/siphash24.rs: from_midstate"]}
{"id": "C25", "title": "fixed_time_eq decides equality", "statement": "cmp::fixed_time_eq(a,b) returns true if and only if a and b are equal, for slices of equal length.", "quantifier": "all pairs of equal-length byte slices", "why_tests_cant": "Any single differing bit at any position must be detected.", "anchors": ["src/cmp.rs: fixed_time_eq"]}
{"id": "C26", "title": "fixed_time_eq panics exactly on different lengths", "statement": "cmp::fixed_time_eq(a,b) panics if and only if the lengths differ, and never indexes out of range.", "quantifier": "all pairs of byte slices", "why_tests_cant": "All pairs of lengths.", "anchors": ["src/cmp.rs: fixed_time_eq"]}
{"id": "C27", "title": "fixed_time_eq touches memory independently of the contents", "statement": "The sequence of memory accesses (slice positions read, volatile reads and writes of the accumulator) and of executed operations of fixed_time_eq depends only on the common length, not on the bytes compared.", "quantifier": "all pairs of pairs of slices of the same length", "why_tests_cant": "A hyperproperty over pairs of runs; timing tests only sample.", "anchors": ["src/cmp.rs: fixed_time_eq"]}
{"id": "C28", "title": "from_slice accepts exactly the right length", "statement": "from_slice(sl) is Ok with exactly the bytes sl when the length is the hash length, otherwise Err with expected = the hash length and got = sl.len().", "quantifier": "every hash type and every slice", "why_tests_cant": "All slice lengths and contents.", "anchors": ["src/internal_macros.rs: from_slice", "src/hmac.rs: from_slice", "src/sha256t.rs: from_slice", "src/sha256.rs: Midstate::from_slice"]}
{"id": "C29", "title": "Byte-array conversions are lossless and every digest has the declared length", "statement": "from_byte_array/to_byte_array/as_byte_array/as_bytes/to_bytes/as_ref/index(..) all expose the same bytes and are mutually inverse; every digest returned by finalize has length LEN (the type's declared length); all_zeros is LEN zero bytes.", "quantifier": "every hash type, every byte array, every engine history", "why_tests_cant": "All byte arrays; all histories.", "anchors": ["src/internal_macros.rs: hash_type, hash_trait_impls", "src/hmac.rs: Hash", "src/sha256t.rs: Hash"]}
{"id": "C30", "title": "Display then FromStr is the identity", "statement": "Parsing the Display (or LowerHex, UpperHex) text of any hash or sha256 midstate gives back the same hash.", "quantifier": "every hash type and every value", "why_tests_cant": "2^160 to 2^512 values.", "anchors": ["src/internal_macros.rs: hash_trait_impls, arr_newtype_fmt_impl", "src/hmac.rs: FromStr, Display", "src/sha256.rs: Midstate FromStr"]}
{"id": "C31", "title": "FromStr accepts exactly hex strings of the right length", "statement": "from_str(s) succeeds if and only if s consists of exactly 2*LEN hexadecimal digits (either case), and then yields the bytes they denote; odd lengths, wrong lengths, non-hex characters and a 0x prefix are rejected.", "quantifier": "every string", "why_tests_cant": "All strings.", "anchors": ["src/internal_macros.rs: hash_trait_impls (FromStr)", "src/hmac.rs: FromStr"]}
{"id": "C32", "title": "Textual forms are faithful", "statement": "Display/LowerHex print exactly 2*LEN lowercase hex digits, most significant nibble first in byte order, UpperHex the uppercase ones, Debug prefixes 0x; two hashes print equal if and only if they are equal.", "quantifier": "every hash type and every value", "why_tests_cant": "All values.", "anchors": ["src/internal_macros.rs: arr_newtype_fmt_impl", "src/hmac.rs: fmt impls"]}
{"id": "C33", "title": "Serde round trip", "statement": "Deserializing what was serialized gives back the same hash, in human-readable (hex string) and in compact (raw bytes) formats.", "quantifier": "every hash type, every value, both format kinds", "why_tests_cant": "All values.", "anchors": ["src/serde_macros.rs: SerdeHash, serde_impl", "src/hmac.rs: Serialize, Deserialize"]}
{"id": "C34", "title": "Serde rejects malformed input", "statement": "Human-readable deserialization succeeds exactly for strings of 2*LEN hex digits (also when delivered as bytes); compact deserialization succeeds exactly for byte strings of length LEN and yields those bytes; anything else is an error, never a panic.", "quantifier": "every string / byte string", "why_tests_cant": "All inputs.", "anchors": ["src/serde_macros.rs: HexVisitor, BytesVisitor"]}
{"id": "C35", "title": "The JSON schema admits every serialized hash but does not characterise them (converse violated)", "statement": "Every human-readable serialization satisfies the published JSON schema (length exactly 2*LEN, pattern [0-9a-fA-F]+). The converse - a string satisfying the schema deserializes - is violated because the pattern is not anchored.", "quantifier": "every hash value / every string", "why_tests_cant": "All values and strings.", "anchors": ["src/internal_macros.rs: JsonSchema", "src/hmac.rs: JsonSchema", "src/sha256t.rs: JsonSchema"]}
{"id": "C36", "title": "Hash ordering is the lexicographic total order", "statement": "cmp/partial_cmp/eq on hash values (derived, and hand-written for sha256t) form a total order consistent with equality, namely the lexicographic byte order, and it coincides with string comparison of the Display texts.", "quantifier": "all pairs and triples of hash values", "why_tests_cant": "Order laws quantify over all pairs/triples.", "anchors": ["src/internal_macros.rs: hash_type derives", "src/sha256t.rs: PartialEq, PartialOrd, Ord"]}
{"id": "C37", "title": "io::Write feeds the hash completely", "statement": "write consumes the entire buffer and returns its length, flush changes nothing, neither ever errors; for any sequence of write, write_all, flush and io::copy with any schedule of short reads, the digest is the digest of the bytes written in order.", "quantifier": "every engine implementing Write, every schedule of writes, flushes and short reads", "why_tests_cant": "All schedules.", "anchors": ["src/impls.rs: impl_write, hmac Write impls"]}
{"id": "C38", "title": "SipHash integer and byte interfaces agree", "statement": "hash_to_u64_with_keys(k0,k1,d) equals hash_with_keys(k0,k1,d).as_u64(); from_engine_to_u64 agrees with from_engine; from_u64/as_u64 are mutually inverse.", "quantifier": "all keys, data, engine states, all u64", "why_tests_cant": "Two separate copies of the finalization code; all states.", "anchors": ["src/siphash24.rs: from_engine_to_u64, hash_to_u64_with_keys, as_u64, from_u64"]}
{"id": "C39", "title": "SipHash keys are preserved", "statement": "keys() of an engine built by with_keys(k0,k1) returns (k0,k1) after any sequence of inputs.", "quantifier": "all keys and input sequences", "why_tests_cant": "All histories.", "anchors": ["src/siphash24.rs: with_keys, keys, input"]}
{"id": "C40", "title": "Engines are independent values", "statement": "In any interleaved history of creating, cloning, feeding, reading and finalizing many engines of any kinds, each finalization returns the standard digest of exactly the bytes fed to that engine and, before the clone point, its ancestors; operations on one engine never affect another.", "quantifier": "every interleaving of operations over any number of engines", "why_tests_cant": "All histories/interleavings.", "anchors": ["src/lib.rs: HashEngine: Clone + Default", "src/sha256.rs: Engine", "src/hmac.rs: Engine"]}
{"id": "C41", "title": "SipHash unsafe loads stay in bounds and are byte-order independent", "statement": "Every unchecked load performed by siphash input stays inside the given slice, and the value loaded is the little-endian value on both little- and big-endian hosts.", "quantifier": "every engine state reachable, every slice, both byte orders", "why_tests_cant": "Out-of-bounds unchecked reads are undefined behaviour that tests may not notice.", "anchors": ["src/siphash24.rs: load_int_le, u8to64_le, input"]}
{"id": "C42", "title": "HMAC key normalisation", "statement": "Two keys behave identically exactly as RFC 2104 prescribes: a key and the same key extended by zero bytes up to the block size give the same MACs, and a key longer than the block size gives the same MACs as its digest.", "quantifier": "every key, every message", "why_tests_cant": "All keys.", "anchors": ["src/hmac.rs: Engine::new"]}
{"id": "C43", "title": "HMAC constructor panics exactly on oversized blocks", "statement": "hmac::Engine::<E>::new(key) panics if and only if E's block size exceeds 128 bytes, whatever the key, with or without debug assertions.", "quantifier": "every lawful engine, every key", "why_tests_cant": "All user-defined engines.", "anchors": ["src/hmac.rs: Engine::new"]}
{"id": "C44", "title": "Collisions reduce to the compression function (Merkle-Damgard)", "statement": "If two different messages have the same digest under sha256 (sha1, ripemd160, sha512) then there are two different (chaining value, block) pairs on which the block function collides; i.e. buffering, padding and length encoding add no collisions.", "quantifier": "every pair of distinct messages below the length limit", "why_tests_cant": "Quantifies over all pairs of messages.", "anchors": ["src/sha256.rs: finalize", "src/sha1.rs: finalize", "src/ripemd160.rs: finalize", "src/sha512.rs: finalize"]}
{"id": "C45", "title": "Tagged hashes are domain separated", "statement": "If two (tag, message) pairs differ but their tagged hashes agree, then the two pairs exhibit a collision of SHA-256 itself.", "quantifier": "every pair of tag/message pairs", "why_tests_cant": "Quantifies over all pairs.", "anchors": ["src/sha256t.rs: Engine", "src/sha256.rs: hash_tag"]}
{"id": "C46", "title": "Resuming from a digest is length extension", "statement": "For sha256 and sha1, from_midstate(hash(m), padded length of m) fed with s finalizes to hash(m || padding(m) || s): midstate resumption is exact also when the midstate is a published digest.", "quantifier": "every m and s", "why_tests_cant": "All messages.", "anchors": ["src/sha256.rs: from_midstate, finalize", "src/sha1.rs: from_midstate, finalize"]}
{"id": "C47", "title": "The numeric tables are the standard ones", "statement": "The initial values and round constants used by the engines are the ones the standards define: fractional parts of square/cube roots of the first primes (SHA-2), the SHA-512/t generation function (SHA-512/256), floor(2^30*sqrt/cbrt) constants and the rho/pi permutations (RIPEMD-160, SHA-1).", "quantifier": "every table entry", "why_tests_cant": "A single wrong digit in a constant is caught only by matching an external definition.", "anchors": ["src/sha256.rs: Default, software_process_block", "src/sha512.rs: Default, sha384, sha512_256, process_block", "src/sha1.rs", "src/ripemd160.rs"]}
{"id": "C48", "title": "Indexing a hash is in-bounds byte access", "statement": "hash[i] returns byte i for i < LEN and panics otherwise; hash[a..b], hash[a..], hash[..b], hash[..] return the corresponding sub-slices and panic exactly when the range is out of bounds or reversed.", "quantifier": "every hash and every index/range", "why_tests_cant": "All indices.", "anchors": ["src/internal_macros.rs: Index impl", "src/hmac.rs: Index impls", "src/sha256.rs: Midstate Index"]}
{"id": "C49", "title": "Every block is processed exactly once, in order", "statement": "Whatever the block function, after any inputs an engine has applied it to exactly the complete 64- (128-) byte blocks of the concatenated input, in order and once each, and finalize applies it to exactly the blocks of message || 0x80 || least zeros || length field; the buffering code is correct independently of any hash function.", "quantifier": "every block function, every list of slices, every starting block count and buffer content, lengths below the counter limit", "why_tests_cant": "Vectors only see the final digest of particular hash functions and lengths.", "anchors": ["src/internal_macros.rs: engine_input_impl", "src/sha256.rs: finalize", "src/sha512.rs: finalize"]}
{"id": "C50", "title": "Left-over buffer bytes never matter", "statement": "Two engines with the same chaining value and counter whose buffers agree on the pending bytes (length mod block size) behave identically for every further sequence of inputs: same counters, same digest, same panics; bytes left over from earlier blocks never reach a digest.", "quantifier": "every pair of engine states (also unreachable ones), every continuation", "why_tests_cant": "Needs two states that differ in bytes no test looks at.", "anchors": ["src/internal_macros.rs: engine_input_impl", "src/sha1.rs: finalize", "src/ripemd160.rs: finalize"]}
{"id": "C51", "title": "With overflow checks no digest is silently wrong", "statement": "In a build with overflow checks, whatever the amount of data, if construct / input* / finalize of any engine of the crate (including sha256t and nested HMAC) returns at all, the digest is the standard one: running out of counter range always panics and never corrupts.", "quantifier": "every engine kind, key, tag, list of slices, pointer width", "why_tests_cant": "The interesting inputs are longer than 2^16, 2^32 or 2^61 bytes.", "anchors": ["src/internal_macros.rs: engine_input_impl", "src/lib.rs: incomplete_block_len", "src/hmac.rs: Engine", "src/sha256t.rs: Engine"]}
{"id": "C52", "title": "Digests do not depend on platform, build or chunking", "statement": "Two runs of the same engine kind on the same bytes, on targets of any pointer width and byte order, in any build (small-hash, SIMD or not, debug or release), cut into slices in any two ways, return the same digest whenever both return one and neither ran past its counter unchecked.", "quantifier": "every pair of configurations, every engine kind, every message", "why_tests_cant": "Tests run on one platform at a time.", "anchors": ["src/sha256.rs: process_block", "src/siphash24.rs: load_int_le", "src/internal_macros.rs: engine_input_impl"]}
{"id": "C53", "title": "HMAC collisions reduce to the block function", "statement": "If the HMAC engine returns the same MAC for two different (normalised key, message) pairs, then two different calls of the block function made while computing the two inner hashes, or while computing the two outer hashes, return the same chaining value.", "quantifier": "every pair of keys and messages below the length limit; sha1, sha256, sha512, ripemd160", "why_tests_cant": "Quantifies over all pairs of keys and messages.", "anchors": ["src/hmac.rs: Engine::new, finalize", "src/sha256.rs: finalize"]}
{"id": "C54", "title": "Inherent constructors equal the engine's result", "statement": "Hash::hash(data) and Hash::from_engine(engine) of every hash type return the digest of the standard for the bytes fed (MAC and tagged-hash types included), and Hash::hash is the same function as <Engine as HashEngine>::hash, panics included.", "quantifier": "every hash type, every engine origin, every list of slices below the length limit", "why_tests_cant": "All messages and all types, including generic and user-defined tags.", "anchors": ["src/internal_macros.rs: hash_type (engine, from_engine, hash)", "src/sha256t.rs: Hash::engine, from_engine, hash", "src/hmac.rs: Hash::engine, from_engine"]}
{"id": "C55", "title": "core::hash::Hash agrees with Eq and is prefix-free", "statement": "Hash values that compare equal feed every Hasher identically; conversely the calls made (and the bytes a Hasher with the default write_usize sees) determine the value and the rest of the stream, so containers of hashes never confuse field boundaries.", "quantifier": "every hash type, every pair of values, every hasher, every continuation", "why_tests_cant": "Quantifies over all hashers.", "anchors": ["src/internal_macros.rs: derive(Hash)", "src/sha256t.rs: impl core::hash::Hash", "src/hmac.rs: derive(Hash)"]}
{"id": "C56", "title": "FromSliceError reports the two lengths", "statement": "The Display text of FromSliceError is 'invalid slice length <got> (expected <len>)' with both lengths as decimal numerals without superfluous zeros, and the text determines the error.", "quantifier": "every error value", "why_tests_cant": "All lengths.", "anchors": ["src/lib.rs: FromSliceError, Display"]}
{"id": "C57", "title": "UTF-8 check of the byte deserializer is exact", "statement": "The human-readable visit_bytes path reports 'not UTF-8' exactly when the bytes are not the UTF-8 encoding of any sequence of Unicode scalar values, and otherwise fails with exactly the error of FromStr.", "quantifier": "every byte string and every hash type", "why_tests_cant": "All byte strings, including overlong forms and surrogates.", "anchors": ["src/serde_macros.rs: HexVisitor::visit_bytes"]}
{"id": "C58", "title": "SipHash state transitions lose no information", "statement": "The SipRound, the c- and d-rounds and the absorption of any word are permutations of the four-word state; therefore engines with different keys (or midstates) fed the same slices always have different internal states.", "quantifier": "every state, word, pair of keys, list of slices", "why_tests_cant": "2^256 states.", "anchors": ["src/siphash24.rs: compress!, State::c_rounds, d_rounds, HashEngine::input"]}
{"id": "C59", "title": "Rounds are permutations; SHA block functions have exactly one fixed point per block", "statement": "For every block, what the block function of SHA-1 and the SHA-2 functions does is to add to the chaining value, word by word, the image of the chaining value under a permutation; and so it has, for every block, exactly one chaining value that it maps to itself. Each of the two lines of RIPEMD-160 permutes the chaining values, for all message words.", "quantifier": "every block of every engine (siphash: C58)", "why_tests_cant": "Quantifies over all blocks and all chaining values.", "anchors": ["src/sha1.rs: process_block", "src/sha256.rs: process_block", "src/sha512.rs: process_block"]}
{"id": "C60", "title": "Every engine, every build, every length: the exact result", "statement": "For every engine (block-function engines, keyed SipHash, tagged, HMAC nested to any depth, any key) the outcome of construct, feed, finalize is given by one function of the concatenated message: with overflow checks the standard digest if all byte and bit counts fit their integer types and otherwise the overflow panic, without them a digest with wrapped counts; builds without overflow checks never panic.", "quantifier": "every target width, both overflow settings, every engine origin, every list of slices", "why_tests_cant": "Covers lengths beyond 2^32 and 2^61 bytes and unbounded nesting, which no test can reach.", "anchors": ["src/hmac.rs: Engine::new, input, finalize", "src/sha256t.rs: Engine", "src/internal_macros.rs: engine_input_impl", "src/siphash24.rs: HashEngine::input, finalize", "src/sha256.rs: finalize"]}
{"id": "C61", "title": "User-defined tags hash from their own starting point", "statement": "For any Tag implementation whose engine() is a SHA-256 engine made by from_midstate(m, n) or the default one, possibly fed some bytes already, the tagged hash is the Merkle-Damgard hash that starts at chaining value m after n bytes and continues with those bytes and the data, with the exact overflow behaviour.", "quantifier": "every midstate, aligned count, prefix and message; every build", "why_tests_cant": "Tag is a public trait: all implementations are covered.", "anchors": ["src/sha256t.rs: Tag, Engine<T>, HashEngine for Engine<T>", "src/sha256.rs: from_midstate"]}
{"id": "C62", "title": "Whole programs behave as specified", "statement": "Any program over the complete engine API (new, hmac new, with_keys, from_midstate, clone, input, n_bytes_hashed, midstate, keys, finalize, to u64, hash, hash_byte_chunks) on any number of engines of any type shows exactly the results, and ends in exactly the panic, of an abstract machine whose engines are a starting point and the bytes fed since; also when every operation is chosen from the results seen so far.", "quantifier": "every program, every interleaving, every engine type including nested HMAC, every build", "why_tests_cant": "Unboundedly many programs and engines.", "anchors": ["src/lib.rs: trait HashEngine", "src/hmac.rs: Engine", "src/siphash24.rs: Engine", "src/sha256t.rs: Engine", "src/sha256.rs: Engine", "src/sha512.rs: Engine"]}
{"id": "C63", "title": "Whole programs: the only panics", "statement": "A program over the engine API panics only by an arithmetic overflow check in a build that has them, or because a from_midstate it calls refuses its length or its (SHA-512 family) type; never by an index, an unreachable! or an access outside a slice. Without overflow checks and without a refused from_midstate every program runs to the end.", "quantifier": "every program and every build", "why_tests_cant": "Absence of panics over all executions.", "anchors": ["src/lib.rs: trait HashEngine", "src/siphash24.rs: load_int_le!, u8to64_le", "src/internal_macros.rs: engine_input_impl", "src/hmac.rs: Engine::new"]}
{"id": "C64", "title": "Cutting an input in two is invisible to the rest of the program", "statement": "Replacing one input(d1 ++ d2) by input(d1); input(d2) anywhere in any program changes no result the program can see later: midstates, counts, digests of this engine, its clones and all others, and the panic if there is one.", "quantifier": "every program, every position, every cut, every engine type and build", "why_tests_cant": "All programs and positions.", "anchors": ["src/internal_macros.rs: engine_input_impl", "src/siphash24.rs: HashEngine::input", "src/hmac.rs: HashEngine::input"]}
{"id": "C65", "title": "Formatting under every formatter option", "statement": "For every hash and every combination of width, fill character, alignment, +, # and 0, Display, LowerHex and UpperHex write the hex digits preceded by the sign and 0x asked for, padded to max(width, natural length) characters on the side asked for (zeros between 0x and the digits for the 0 flag); Debug ignores the caller's options and writes 0x and the digits; such a text is parsed back to the same hash when nothing was added and refused otherwise, never parsed as another hash.", "quantifier": "every hash value, width, Unicode fill character, alignment and flag", "why_tests_cant": "Unbounded widths, 1.1 million fill characters, all flag combinations, all hashes.", "anchors": ["src/internal_macros.rs: arr_newtype_fmt_impl", "src/internal_macros.rs: FromStr impl"]}
{"id": "C66", "title": "SHA-1, SHA-2 and RIPEMD-160 are their standards read on bit strings", "statement": "The digests of the SHA-1, SHA-256, SHA-384, SHA-512 and SHA-512/256 engines, as bit strings, are exactly what FIPS 180-4 defines when messages, words and digests are bit strings: padding by one 1 bit and the least number of 0 bits, parsing into groups of bits, rotations and shifts that move bits, bitwise functions, addition modulo 2^w. The digests of the RIPEMD-160 engine are those of the pseudo-code of the RIPEMD-160 paper with its printed tables, on bit strings.", "quantifier": "every message that fits the counters, cut into slices in any way, every build", "why_tests_cant": "All messages; ties the octet and integer arithmetic of code and specification to the bits of the standard.", "anchors": ["src/sha1.rs: process_block", "src/sha256.rs: software_process_block, finalize", "src/sha512.rs: process_block, finalize", "src/sha384.rs", "src/sha512_256.rs"]}
{"id": "C67", "title": "Hashing reveals only lengths", "statement": "The branches taken and the memory addresses accessed (in input, key, pads, buffer and the arrays of the block functions) by a run of any engine - construction with a secret key, any sequence of input calls, finalize - are determined by the engine type, the key length and the list of input lengths alone, and so is whether and how it panics. A block function takes the same branches and uses the same indices for every chaining value and block. The recording version computes the digest of the plain model.", "quantifier": "every pair of runs: all keys of one length, all messages of the same slice lengths, every engine type including nested HMAC and SipHash with any keys, every build", "why_tests_cant": "A statement about pairs of executions over all secrets.", "anchors": ["src/internal_macros.rs: engine_input_impl", "src/hmac.rs: Engine::new, input, finalize", "src/siphash24.rs: HashEngine::input, u8to64_le, load_int_le!", "src/sha256.rs: finalize", "src/sha512.rs: finalize", "src/sha1.rs: finalize", "src/ripemd160.rs: finalize"]}
{"id": "C68", "title": "Exact amount of work, linear in the input", "statement": "A run that returns a digest calls the block function exactly ceil((n + 1 + f) / B) times for an n-byte message (f the size of the length field, B the block), SipHash absorbs floor(n / 8) words and makes two final calls, HMAC the sum for its two hashes plus that of a long key; however the message was cut and also when the counter wraps. m more bytes cost at most m / 8 + 1 more calls.", "quantifier": "every engine type including nested HMAC, every key, every message and cutting, every build", "why_tests_cant": "All lengths, unbounded nesting.", "anchors": ["src/internal_macros.rs: engine_input_impl", "src/sha256.rs: finalize", "src/sha512.rs: finalize", "src/siphash24.rs: HashEngine::input", "src/hmac.rs: Engine"]}
{"id": "C69", "title": "Reference casts between arrays and hashes are views in place", "statement": "For every hash type made by hash_type! and for sha256t::Hash, under every layout the compiler may choose, from_bytes_ref and from_bytes_mut applied to a reference to LEN bytes are defined, give a hash at the same address, reading it gives exactly those bytes, assigning through it changes exactly those bytes, and as_byte_array leads back to the same reference. For hmac::Hash<N>, which lacks repr(transparent), the cast is defined exactly if the layout has size N and the address is aligned for it; the language allows layouts for which it is undefined for every array.", "quantifier": "every hash type, every allowed layout, every memory, address and new value", "why_tests_cant": "Undefined behaviour and compiler layout choices do not show in tests with one compiler.", "anchors": ["src/internal_macros.rs: from_bytes_ref, from_bytes_mut, as_byte_array", "src/sha256t.rs: from_bytes_ref, from_bytes_mut", "src/hmac.rs: from_bytes_ref, from_bytes_mut"]}
{"id": "C70", "title": "The translated source text behaves as specified in every program", "statement": "The engine API as translated mechanically from the source text (tools/rs2v.py; no hand-written model functions) shows, in every program over the complete API on any number of engines of any type, exactly the results and the final panic of the abstract machine of the specification; also when every operation is chosen from the results seen so far.", "quantifier": "every program, every interleaving, every engine type including nested HMAC, every build", "why_tests_cant": "Unboundedly many programs; also guards against mistakes in the hand-written model.", "anchors": ["src/lib.rs: trait HashEngine", "src/internal_macros.rs: engine_input_impl", "src/hmac.rs: Engine", "src/siphash24.rs: Engine", "src/sha256t.rs: Engine", "src/sha256.rs: Engine", "src/sha512.rs: Engine", "src/sha1.rs: Engine", "src/ripemd160.rs: Engine"]}
{"id": "C71", "title": "The translated source text computes the standards", "statement": "The translated text of Hash::hash of each algorithm, of hash_byte_chunks for every engine type (HMAC and tagged included), of SipHash with keys and of sha256 const_hash returns exactly the digest of the standard.", "quantifier": "every message that fits the counters, every cutting into chunks, every key and every build", "why_tests_cant": "All messages and keys.", "anchors": ["src/lib.rs: hash, hash_byte_chunks", "src/siphash24.rs: hash_with_keys, hash_to_u64_with_keys", "src/sha256.rs: const_hash", "src/hmac.rs: Engine"]}
{"id": "C72", "title": "The translated fixed_time_eq decides equality", "statement": "The translated text of fixed_time_eq returns true exactly if the two slices are equal when their lengths agree, and panics by its assertion when they do not.", "quantifier": "every pair of slices", "why_tests_cant": "All pairs of slices of every length.", "anchors": ["src/cmp.rs: fixed_time_eq"]}
{"id": "C73", "title": "Two independent transcriptions of the code agree", "statement": "Every method of every engine type, as translated from the source text, is equal to the hand-written model, panics included; HMAC over any agreeing pair of engines agrees again, its key set-up included; so do SipHash engines with keys and the keyed one-shot functions. Each translated block function (software, small-hash and SHA-NI text) is the compression function of the standard for every chaining value and block.", "quantifier": "every engine type, every well-typed state, every slice, every build", "why_tests_cant": "All states and blocks of straight-line code of thousands of operations.", "anchors": ["src/sha1.rs: process_block", "src/sha256.rs: process_block, software_process_block, process_block_simd_x86_intrinsics", "src/sha512.rs: process_block", "src/ripemd160.rs: process_block", "src/siphash24.rs: HashEngine::input", "src/hmac.rs: Engine::new", "src/internal_macros.rs: engine_input_impl"]}
{"id": "C74", "title": "The translated value types", "statement": "As translated from the source text, for every hash type and sha256::Midstate: from_slice accepts exactly the slices of the digest length and otherwise reports both lengths; from_str accepts exactly the hex texts of twice that length and reports the first defect otherwise; all conversions keep the bytes; all_zeros and Default are zeros of that length; LEN is that length; indexing gives exactly the asked part or panics; sha256t::Hash compares as its bytes; engine, from_engine and hash of each type give the standard digests.", "quantifier": "every type (hmac::Hash<N> for every N, every tag), every slice, text, index, hash, message and build", "why_tests_cant": "All slices, texts and indices for an infinite family of types.", "anchors": ["src/internal_macros.rs: hash_type!, hash_trait_impls!, as_ref_impl!", "src/hmac.rs: Hash", "src/sha256t.rs: Hash", "src/sha256.rs: Midstate", "src/lib.rs: FromSliceError"]}
{"id": "C75", "title": "The translated Write implementations", "statement": "As translated from src/impls.rs: any program of write, write_all, write_vectored, flush, io::copy from a reader and direct input on any engine that implements Write (both impls of hmac::Engine) reports the counts it should, feeds exactly the bytes offered, ends in the state that inputs of the same bytes give (panics included), and its digest is that of the standard.", "quantifier": "every program, every reader, every engine type with a Write impl, every key and build", "why_tests_cant": "All programs and readers.", "anchors": ["src/impls.rs: impl_write!, impl Write for hmac::Engine"]}
{"id": "C76", "title": "The translated text reveals only lengths", "statement": "The engine API as translated mechanically from the source text, in a mode that records every branch, every array and slice position read or written, every loop test, and the operands of every multiplication, every division and shift by a non-literal: for two runs that construct an engine of the same type (keys of equal length, any SipHash keys), do the same sequence of feeding, taking the midstate and resuming from it, with slices of equal lengths, the records are equal and so are the kind and the length of the results. Recording changes no result. Each block function (software, small-hash and SHA-NI text) has one record for all chaining values and blocks.", "quantifier": "every pair of runs, all keys and messages, every engine type including nested HMAC, every build", "why_tests_cant": "A statement about pairs of executions over all secrets; tests see neither branches nor indices.", "anchors": ["src/sha1.rs: process_block, finalize", "src/sha256.rs: process_block, software_process_block, process_block_simd_x86_intrinsics, finalize", "src/sha512.rs: process_block, finalize", "src/ripemd160.rs: process_block, finalize", "src/siphash24.rs: HashEngine::input, u8to64_le", "src/hmac.rs: Engine::new, input, finalize", "src/internal_macros.rs: engine_input_impl"]}
{"id": "C77", "title": "The translated fixed_time_eq reads everything, always", "statement": "The record of the translated text of fixed_time_eq on two slices of n bytes is, whatever their contents, one test of the lengths, then for each index below n in turn one read of either slice, and nothing else; for slices of different lengths too the record depends on the lengths alone. Recording changes no result.", "quantifier": "every pair of slices", "why_tests_cant": "A statement about all pairs of executions of every length.", "anchors": ["src/cmp.rs: fixed_time_eq"]}
{"id": "C78", "title": "The translated formatting impls", "statement": "As translated from the source text: LowerHex, UpperHex and Display of every macro-made hash type, of sha256t::Hash and of sha256::Midstate write, under every width, fill, alignment, +, 0 and # option, exactly the padded hexadecimal text asked for and never panic; Debug always writes 0x and the lower-case digits, whatever the options; hmac::Hash does the same without options or with #; Display text and upper-case text parse back to the value; the text of FromSliceError names the two lengths in the right places.", "quantifier": "every hash type and value, every formatter option, every pair of lengths", "why_tests_cant": "All values under all combinations of options.", "anchors": ["src/internal_macros.rs: arr_newtype_fmt_impl!", "src/hmac.rs: fmt impls", "src/lib.rs: Display for FromSliceError"]}
{"id": "C79", "title": "The translated serde code", "statement": "As translated from src/serde_macros.rs and the impls: for every deserializer, also one that hands over different values when asked for different ones, deserialize asks for a string exactly when the format is human readable and for bytes otherwise, accepts exactly the right texts or byte strings, and reports precisely the defect otherwise (constructor, unexpected value, expectation text); it never panics. serialize writes the lower-case hex text or the bytes, and reading that back gives the value.", "quantifier": "every hash type, every deserializer and every value it can hand over, every build", "why_tests_cant": "All inputs of all kinds for every type; the error paths are not tested at all.", "anchors": ["src/serde_macros.rs: HexVisitor, BytesVisitor, SerdeHash, serde_impl!", "src/hmac.rs: impl SerdeHash, Serialize, Deserialize"]}
{"id": "C80", "title": "The translated JSON schemas", "statement": "As translated from the source text, with the pattern text read as a regular expression: the schema of every type of fewer than 2^31 bytes admits exactly the strings of twice the digest length that contain a hex digit; so it admits every text serialize writes, but also texts that cannot be read (refuted converse), is missing or wrong for larger hmac::Hash (refuted), and all types share one schema name (refuted uniqueness).", "quantifier": "every type with a schema, every string, every build", "why_tests_cant": "All strings and all N.", "anchors": ["src/internal_macros.rs: JsonSchema", "src/hmac.rs: JsonSchema", "src/sha256t.rs: JsonSchema"]}
{"id": "C81", "title": "The translated core::hash::Hash of tagged hashes", "statement": "As translated from the source text, two sha256t::Hash values compare equal exactly if they make every Hasher do the same, and the calls of Hasher determine the value whatever is hashed after it.", "quantifier": "every pair of values, every Hasher", "why_tests_cant": "All hashers and values.", "anchors": ["src/sha256t.rs: core::hash::Hash, PartialEq"]}
{"id": "C82", "title": "The declared structs and their reference casts", "statement": "As translated from the source text (struct declarations with their attributes, from_bytes_ref, from_bytes_mut and the functions that return references to the bytes): the compiler accepts the declarations; for every macro-made hash type and sha256t::Hash, under every layout the Rust reference allows for the declaration, either cast of a reference to a digest-length array is defined and gives a reference to the same place, every reference to the bytes leads back to it, and a value written through it changes exactly those bytes; for every type the references to the bytes stay inside the value. For hmac::Hash<N>, declared without repr(transparent), the casts are defined exactly if the layout has size N and the address is aligned, and an allowed layout makes them undefined for every array.", "quantifier": "every hash type, every N and tag, every allowed layout, every address, memory and new value", "why_tests_cant": "Undefined behaviour and compiler layout choices do not show in tests with one compiler.", "anchors": ["src/internal_macros.rs: hash_type!", "src/hmac.rs: struct Hash, from_bytes_ref, from_bytes_mut", "src/sha256t.rs: struct Hash, from_bytes_ref, from_bytes_mut", "src/sha256.rs: struct Midstate"]}
{"id": "C83", "title": "Derived and written comparison, hash and default of every type", "statement": "With the derives and impls as they stand in the source text: for every hash type and sha256::Midstate == is equality of bytes, cmp is the lexicographic order of the bytes and total, partial_cmp agrees with it, equal values and only these make every Hasher do the same, the calls of Hasher determine the value whatever follows, clone gives the value and Default, where there is one, zeros of the digest length. Only hashes and midstates are Copy, so no engine can be used after it was consumed.", "quantifier": "every type, every pair or triple of values, every Hasher", "why_tests_cant": "All values and hashers for an infinite family of types.", "anchors": ["src/internal_macros.rs: hash_type! (derive)", "src/hmac.rs: derive on Hash", "src/sha256.rs: derive on Midstate", "src/sha256t.rs: impl PartialEq, Ord, Hash, Default, Clone"]}
{"id": "C84", "title": "Debug of a SipHash engine shows the key", "statement": "siphash24::Engine derives Debug: its {:?} text is the decimal numerals of k0, k1 and all other fields between fixed texts, and both it and the {:#?} text determine the whole engine, so the key cannot stay hidden from a log (refuted secrecy). No other engine of the crate implements Debug. The derived Debug of FromSliceError names both lengths.", "quantifier": "every engine state, every pair of lengths", "why_tests_cant": "All states; the tests never format an engine.", "anchors": ["src/siphash24.rs: derive(Debug) on Engine and State", "src/lib.rs: derive(Debug) on FromSliceError"]}
{"id": "C85", "title": "The unsafe SHA-256 block function runs only where it may", "statement": "Whatever the features, target and CPU: process_block never executes an instruction the CPU lacks and never calls a function the build does not have. The detection expression holds exactly if every extension in the #[target_feature] attribute is there, every intrinsic in the body belongs to a declared extension, the fast path is taken exactly with std on x86 or x86_64 with all of them, and on either path the result is the compression function of the standard.", "quantifier": "every build (features, target), every CPU, every engine state and block", "why_tests_cant": "CI machines have all the extensions: a missing check shows only on a CPU that lacks exactly that one.", "anchors": ["src/sha256.rs: process_block, process_block_simd_x86_intrinsics (cfg, target_feature, intrinsics)"]}
{"id": "C86", "title": "Conditional compilation: every name is defined once, and which feature sets resolve", "statement": "With every item of the crate, the cfg attributes it stands under and the names it needs as they stand in the source text: two definitions of one name never meet and exactly one of them is compiled in every build. All names resolve exactly if alloc and schemars are used only with std (or in tests) and tests are not built for wasm32. For the features as Cargo resolves them: exactly if std or default is asked for, or neither alloc nor schemars. So the README's 'any combination of features' is refuted (--no-default-features --features alloc has no Vec). bitcoin_io::Write is implemented exactly if default, std, io or bitcoin-io is asked for, std::io::Write exactly with default or std.", "quantifier": "every set of features, every target architecture, every test/bench/fuzz setting", "why_tests_cant": "Exponentially many feature sets; CI tries a few.", "anchors": ["src/*.rs: cfg attributes", "src/lib.rs: no_std, extern crate", "Cargo.toml: features, dependencies", "README.md: Minimum Supported Rust Version"]}
{"id": "C87", "title": "The build for fuzzing (violated: it does not compile)", "statement": "In every build without hashes_fuzz all variables of the engines' functions are declared; with it exactly one is not: e in sha256's finalize, so that build is rejected (refuted). With e read as self, for every message in any pieces: each digest is one octet followed by zeros, namely the exclusive or of all octets (SHA-256: 1 in place of 0; the SHA-512 family: complemented; RIPEMD-160: also with the length; SHA-1: of the padded message); SipHash takes only the whole words and no finalization; HMAC is RFC 2104 over these. SHA-256 is never all zero and differs from SHA-512/256 on every message, as the comments intend. Permuting message or key changes no digest or MAC, a partial last word does not change SipHash, and tags and midstates have no effect. Midstate resume, const_hash = hash and to_u64 = as_u64, which hold in the ordinary build, are refuted for it.", "quantifier": "every algorithm, every message, key and chunking, every target", "why_tests_cant": "The build cannot be run at all; in it, all messages.", "anchors": ["src/*.rs: #[cfg(hashes_fuzz)]", "src/internal_macros.rs: engine_input_impl!", "src/sha256.rs: finalize, midstate", "src/siphash24.rs: finalize"]}
{"id": "C88", "title": "Which types have which traits", "statement": "From the structs, derives and impls as they stand in the source (macros expanded), the rules of derive, of auto traits and of the standard library: in every build, and for any types of other crates, the set of traits of each public type is exactly a documented list. Every fixed-size hash is Copy, ordered, hashable, read from and written as hex, viewed as a slice and an array of its size, and with the features has serde and schema impls; the HashEngine types are exactly the seven engines, the tagged engine of a Tag, HMAC over such a type and engines of other crates; engines are Clone and Default, and only siphash24's has Debug. sha256t's types are Send and Sync exactly if the tag is (PhantomData<T>); hmac::Midstate has no trait but these, not even Clone. The digest of every engine is an array of the size of its hash type, for HMAC that of the engine it is over; a tag has to be Clone and nothing more. The compiler's conditions hold: what a trait implies (Ord: Eq, HashEngine: Clone and an ordered Digest, Tag: Clone, Copy: Copy fields) holds wherever the trait does, derives find the trait in every field, all types are well-formed, no two impls meet and every impl is for a type of the crate.", "quantifier": "every build, every type (also of other crates) as tag, engine or size, every trait", "why_tests_cant": "A test can only use an impl that is there, for one type at a time; that an impl is absent or bounded too tightly or loosely for some parameter shows in no run.", "anchors": ["src/*.rs: derive, impl", "src/internal_macros.rs: hash_type!, hash_trait_impls!", "src/impls.rs: Write", "src/sha256t.rs: Tag, Hash, Engine", "src/hmac.rs: Hash, Engine, Midstate", "src/lib.rs: HashEngine"]}
{"id": "C89", "title": "Engines are opaque", "statement": "From the fields and functions of the source with their visibility (macros expanded): the fields of every struct are private, but those of the three midstate structs and of FromSliceError. The public functions with exclusive access to an engine are exactly HashEngine::input and write and flush of the Write impls, and those returning one exactly the documented constructors (Hash::engine, Default, from_midstate, siphash24's new and with_keys, HMAC's new, the tag's). The only exclusive references handed out are those of from_bytes_mut. So a sequence of such calls, as C62 and C70 have them, is all a user can do to an engine.", "quantifier": "every field, every public function, every engine type", "why_tests_cant": "That no other way in exists shows in no run: a test can only use a function that is there.", "anchors": ["src/*.rs: struct fields, fn signatures", "src/internal_macros.rs: hash_type!, engine_input_impl!"]}
