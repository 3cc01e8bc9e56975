# Design: a machine-checked model of `chf` (rust-chf) in Rocq

Everything is under `rocq/theories` (Coq 8.16.1, `-Q theories Verif`).  This
document says what is modelled, how each property in `properties.jsonl` is
proved, what was found in the code, and what is trusted.

## 1. Shape of the model

* **Bytes** are `Coq.Init.Byte.byte` (256 values), so a theorem over
  `list byte` needs no range hypothesis.  **u32/u64/usize** are `N` with
  explicit operations (`wrapping_add`, `rotate_left`, ...) that reduce modulo
  `2^w`; plain `+ - *` are checked operations that panic or wrap according to
  the build configuration.
* **Outcomes**: every function that can panic returns `res A`
  (`Ok a | Panic kind`); the kinds are arithmetic overflow, slice/index out of
  range, failed assert, failed `expect`, `unreachable!`, undefined behaviour
  (an out-of-bounds unchecked load) and out-of-fuel (a model artefact; the
  theorems exclude it by stating `Ok` or naming the panic).
* **Build configuration** `config`: usize width (16/32/64), overflow checks,
  debug assertions, `small-hash` feature, SHA-NI availability, host byte
  order.  Theorems quantify over all of them (`wf_config` only says that the
  width is one of the three).
* **Engines** are records of buffer, chaining words and length exactly as in
  the Rust structs; `input` is the Rust `while` loop; `finalize` calls `input`
  with the padding as the Rust does.  Round code that the Rust unrolls is
  transcribed as a table (one row per macro invocation: the variable order, the
  constant, the message-word indices) and interpreted by a small evaluator of
  the macro's body.  The x86 path is transcribed as a list of intrinsic calls
  over named registers and interpreted using Intel's documented semantics.
  The tables (`Tables*.v`) are extracted from the source text by
  `tools/gen_tables.py`.
* **HashEngine** (the trait) is a Coq record; HMAC is a function from such a
  record to such a record; sha256t likewise over the engine of a tag.
* **Value types** (`hash_type!`, hmac::Hash, sha256t::Hash, Midstate) are byte
  strings with the type's name as an index (`hash_ty`); conversions, text,
  serde, comparison, hashing, indexing are functions of the name.

Files (every definition cites the lines of `/repo` it transcribes;
`tools/cites.py` lists the lines of code that no definition cites):

| file | code |
|------|------|
| `Base` | meanings of the Rust primitives used |
| `ModelEngine` | `engine_input_impl!`, the padding code, the `HashEngine` trait and its provided methods |
| `ModelSha1`, `ModelSha256`, `ModelSha512`, `ModelRipemd`, `ModelSha2Round`, `ModelRipemdRound`, `Tables*` | block functions (normal and small-hash), engines, `const_hash`, `hash_tag` |
| `ModelSimd`, `TablesSimd` | the SHA-NI block function |
| `ModelSip` | siphash24 including unchecked loads |
| `ModelHmac` | hmac engine, sha256t engine |
| `ModelAll` | selection by name |
| `ModelCmp` | `fixed_time_eq` with its trace of volatile accesses |
| `ModelTypes`, `ModelValues` | value types, hex, serde, schema, constructors, `core::hash::Hash`, errors |
| `ModelFmt` | the `fmt` impls with all formatter options |
| `ModelLeak` | the engines and block functions again, recording branches and addresses |
| `ModelMem` | layouts, references with their range, the casts of `from_bytes_ref/mut` |
| `ModelIo` | `Write` impls, `write_all`, copy loop |
| `ModelWriter` | the same `write_all`, `write_vectored` and copy loop over any `write` and `flush` |
| `ModelStore`, `ModelProgram` | programs with many engines; the latter over the whole API |
| `GenBase` | meanings of the Rust constructs used by the generated files (independent of the crate) |
| `GenLib`, `GenCmp`, `GenSip`, `GenSha1`, `GenSha256`, `GenSha256Const`, `GenSha512`, `GenSha384` (also SHA-512/256), `GenRipemd`, `GenHmac`, `GenSha256t`, `GenTypes` (value types), `GenIo` (`Write` impls) | the same functions again, written by `tools/rs2v.py` from the source text |
| `TextBase` | the calls of `core::fmt`, hex-conservative, serde and schemars that occur in the crate |
| `GenText` | `fmt` impls, src/serde_macros.rs and the serde impls, `json_schema`, `core::hash::Hash` of sha256t, written by `tools/rs2v_text.py` over `TextBase` |
| `DeclBase` | struct declarations, allowed layouts, pointer casts, derived `Debug` |
| `GenDecl` | the declarations with their attributes, the reference casts and what `derive` makes, written by `tools/rs2v_decl.py` over `DeclBase` |
| `BuildBase` | cfg predicates, items with what they need, calls of `target_feature` functions |
| `GenBuild` | every item of src/*.rs with its cfg attributes and the names it needs, the features of Cargo.toml, the choice in `sha256::Engine::process_block`; written by `tools/rs2v_build.py` over `BuildBase` |
| `GenFuzz` | the engines, hash types, HMAC and sha256t as compiled with `--cfg hashes_fuzz`, written by `tools/rs2v.py` (names `f_...`) |
| `ScopeBase`, `GenScope` | every function of an engine as a tree of declarations and uses of variables, with the builds it is compiled in; written by `tools/rs2v_fuzz.py` |
| `TraitBase`, `GenTrait` | the trait system (impls as clauses, derives, auto traits, associated types, impls of core); every struct, trait and impl of the crate, written by `tools/rs2v_trait.py` |
| `TraceBase` | the constructs of `GenBase` once more, each recording what it reveals |
| `TraceCmp`, `TraceLib`, `TraceSip`, `TraceSha1`, `TraceSha256`, `TraceSha512`, `TraceSha384`, `TraceRipemd`, `TraceHmac`, `TraceSha256t` | the same text written by `tools/rs2v.py` over `TraceBase` |

**Translated text.**  `tools/rs2v.py` parses the Rust text, expands the macros
and writes one Gallina definition per function, statement by statement (an
assignment is a rebinding, an operation that can panic a bind, `while` a
recursion with fuel, `for` a loop combinator of `GenBase`).  It uses the record
types of the hand-written model (engines, `HashEngine` dictionaries, `config`)
and the primitives of `Base`, the semantics of the x86 intrinsics
(`ModelSimd`) and of unchecked loads (`ModelSip.get_unchecked`), and nothing
else of it: no round tables, no padding helper, no `engine_input`.  What is outside its subset is an error, not
a guess.  Running it again must reproduce the committed `Gen*.v` exactly
(`python3 tools/rs2v.py /repo/src DIR` and `cmp`).  C70-C75 are about these
files.  For the value types it uses the hand-written `Result` and error types,
`array_eq` and `array_cmp` (core's array comparison), `hash_index` (core's
`SliceIndex`) and `array_from_hex` (hex-conservative).  A newtype is its field,
a reference its value.  With `--left` it lists the functions it does not
translate that way: a test helper, and the functions done by `tools/rs2v_text.py`
and `tools/rs2v_decl.py`.  The one difference found between the two transcriptions: SHA-512's
`finalize` feeds the zero padding before it multiplies the length by 8, the
hand-written `finalize_pad` multiplies first; both orders can only panic with
an overflow, so the outcomes are equal (`bind_swap` in ProofGenEngine.v).

**Formatting, serde, schema.**  `tools/rs2v_text.py` (called by `rs2v.py`, on
the same parser and macro expander, with the features `serde` and `schemars` on)
writes `GenText.v`.  These functions are compositions of library calls, so it
goes by the shape of the expression; an unknown shape is an error.  A `fmt`
function is the text it writes into a sink that never fails.  A deserializer is
its `is_human_readable` and a function from what it is asked for
(`deserialize_str`, `deserialize_bytes`, ...) to what it hands to the visitor; a
visitor method missing in the text is serde's default.  Errors keep the
constructor, the unexpected value and the expectation text.  A schema keeps the
pattern as text; SpecGenText.v reads it as a regular expression (only the form
`[...]+`).  C78-C81 are about this file.

**Declarations.**  `tools/rs2v_decl.py` (called by `rs2v.py`) writes `GenDecl.v`:
for each hash type its fields and `repr`, the casts `from_bytes_ref/mut` and the
functions `&self.0` as operations on pointers, and `==`, `cmp`, `partial_cmp`,
`core::hash::Hash`, `Clone`, `Default` from the derive list or, where the text has
an impl, from its translation.  A derived function of a newtype is that of its
array (`array_eq`, `array_cmp`, `array_hash`).  `allowed` in `DeclBase` is what the
Rust reference promises about the layout of a declaration.  Derived `Debug` is a
tree of names and numbers, written as `{:?}` or `{:#?}` without further options.
C82-C84 are about this file.

**Builds.**  `tools/rs2v_build.py` (called by `rs2v.py`) reads the source without
choosing a build.  For each item, and each statement with a cfg of its own, it
lists the cfg attributes (its own and those of the enclosing items and of the
`mod` line in lib.rs) and what its tokens need: crates named at the start of a
path, names of the std prelude that core's lacks (`Vec`, `String`, `Box`,
`to_owned`, `to_string`, `vec!`, `format!`), macros of the crate, functions of the
crate all of whose definitions are conditional, the intrinsics.  A macro counts as
used where it is defined.  Not covered: types, methods of other traits, name
resolution inside the crate other than as listed.  C85 and C86 are about this file;
the CPU is a function from extension names to booleans, and `config.sha_ni` of the
other files is `accelerated` of it.

**The build for fuzzing.**  With `--cfg hashes_fuzz` the engines have other `input`,
`finalize` and `midstate` functions.  `rs2v.py` translates all engines a second
time with that flag set (`GenFuzz.v`).  The text does not compile: `finalize` of
sha256 uses a variable `e` that no one declares.  The translation reads it as
`self`, the one place where it repairs the text.  That this is the only undeclared
variable, and only in this build, is proved over `GenScope.v` (C87_declared,
C87_undeclared).  Functions without a variant for fuzzing are the same text again.
SpecFuzz.v says what the stand-ins compute.

**Traits.**  `tools/rs2v_trait.py` (called by `rs2v.py`) lists the structs, traits and
impls with parameters, bounds, fields, derives and associated types, macros
expanded, each under its cfg attributes; tests are left out.  `TraitBase` gives
them meaning: an impl is a clause from its bounds to its head, `derive` adds the
trait for every type parameter, an auto trait of a struct follows from that of its
fields, an associated type has the traits of its value, and `sat` is the least
relation closed under the clauses compiled in the build.  What core has is in
`core_clauses`.  Not covered: lifetimes, the associated types `Output` and `Value`,
paths of traits except for the two `Write` traits (a trait goes by its last
segment), blanket impls of core and of other crates (`ToString`, `Borrow`, `Into`),
function bodies and signatures.  `impl_write!` counts as an impl of
`bitcoin_io::Write`, which is what that crate's documentation says of it.  Types of
other crates are `TUser`; what is known of them is any set of facts that is closed
under what the traits imply (`world`).  C88 is about this file; SpecTrait.v is
written from the documentation.

**Fields and functions.**  `tools/rs2v_api.py` writes `GenApi.v`: every field of
every struct with its visibility, and every function with the type and trait of its
impl, its cfg attributes, visibility, and the types of the crate its signature takes
and gives (by value, behind `&`, behind `&mut`; `Self` and the macros' parameters
replaced).  A function of a trait impl counts as public, and so does every one marked
`pub`, whatever its module.  Derived functions and bodies are not in it, and
a function generic over the engine (`hmac::Hash::engine`, those of `HashEngine` itself)
is not listed under each engine: it can only use that engine's impl.  C89 is about this
file.

**Trace mode.**  The second time `tools/rs2v.py` writes the engines (`Trace*.v`)
every construct comes from `TraceBase` and returns, beside its value, the list of
events it reveals: outcomes of `if`, `&&`, `||`, `min`, assertions and loop tests;
position and number of the elements read or written; bounds of subslices; operands
of multiplications and of divisions by a non-literal; distances of shifts by a
non-literal.  Not recorded, as revealing nothing: additions, subtractions and
rotations (their overflow checks show only as a panic, which is compared), divisions
and shifts by a literal, and functions without branches or accesses (the `Gen*`
definition of type other than `res` is used for these, e.g. the SipHash rounds).
The tag of a tagged hash is a constant of the type, so its engine is not traced.
The value component of each construct is by definition that of `GenBase`, and
C76_erase/C77_erase say so for whole runs.  C76, C77 are about these files.

## 2. Specifications

`SpecBase`, `SpecMD`, `SpecSha1`, `SpecSha2`, `SpecRipemd`, `SpecMac`,
`SpecText`, `SpecValues`, `SpecBits`, `SpecBitsRip` do not mention the model: FIPS 180-4 SHA-1 and SHA-2
(full message schedule, right rotations, padding with the least number of zero
bits) with constants computed from integer square and cube roots of primes;
RIPEMD-160 from the paper (selection functions, rho, pi, shift table);
SipHash-2-4 from the paper; RFC 2104; BIP-340 tagged hash; hex, decimal
numerals, UTF-8; Merkle-Damgard iteration.  `SpecBits` is FIPS 180-4 a second
time, on lists of bits; `SpecBitsRip` is RIPEMD-160 a second time, on lists of
bits and with the tables as printed in the paper's pseudo-code.

`SpecApi`, `SpecStore`, `SpecMore`, `SpecExact`, `SpecIo`, `SpecTypes`,
`SpecTables`, `SpecPerm`, `SpecProgram`, `SpecFmt`, `SpecLeak`, `SpecGen`, `SpecGenTypes`, `SpecGenText`, `SpecGenDecl`, `SpecBuild`, `SpecTrace` are vocabulary for statements about the model: they
mention the record types of the model (engines, hash type names, origins of an
engine) but are written in terms of the specifications above.

The `Prop*.v` files contain the theorems (one line `Proof. exact lemma.`),
`Print Assumptions` for each, and an `Example Cxx_case` that shows a concrete
case meeting the hypotheses.  Proofs are in `Proof*.v`.

## 3. The properties

| id | what is modelled | how it is proved |
|----|------------------|------------------|
| C01-C05 | engines, generic buffering, block functions (software, small-hash, SIMD) | invariant "h = fold of compression over complete blocks, buffer = rest" + block function = FIPS compression for all inputs + padding lemma |
| C06 | ripemd160 engine | same; the 160-row table is checked against rho/pi/shift tables by computation and lifted by a rotated-variables lemma |
| C07 | siphash24 engine incl. tail buffering and unchecked loads | invariant over message prefix |
| C08 | hmac engine over any lawful engine | lawfulness is preserved by HMAC, so nesting is covered |
| C09 | sha256t engine | from_midstate lemma + hash_tag lemma |
| C10-C12 | all engines, all reachable states | corollaries of the invariants |
| C13 | counter wrap / overflow panic | the invariant carries length mod 2^bits; exact condition of the checked addition |
| C14 | SIMD path | four-round group lemmas on symbolic registers |
| C15 | small-hash path | sliding-window schedule lemma |
| C16-C17 | const_hash with its own round table | chunk-loop invariant, padding lemma |
| C18-C19 | midstate/from_midstate | be-bytes round trip on bounded words |
| C20-C23 | faithful model of the defects | `_refuted` theorems with witnesses + exact positive characterisation |
| C24 | from_midstate | case analysis |
| C25-C27 | fixed_time_eq as a small-step trace of volatile accesses | bit reasoning on bytes; trace equality |
| C28-C29, C48 | hash newtypes | direct |
| C30-C32 | hex encode/decode as documented by hex-conservative | induction |
| C33-C35 | serde visitors and JSON schema | direct; the converse of C35 refuted |
| C36 | derived and hand-written orderings | induction; order of the Display text |
| C37 | io::Write impls, write_all, copy loops | induction over schedules of partial reads and writes |
| C38-C39, C41 | siphash interfaces | invariant |
| C40 | a store of engines with create/clone/input/finalize operations | simulation with a store of byte strings |
| C42-C43 | hmac key handling | from C08 |
| C44-C45, C53 | padding injectivity, Merkle-Damgard reduction | constructive extraction of the colliding calls |
| C46 | from_midstate | from C18 + padding |
| C47 | tables | computation against integer roots |
| C49 | engine macro and padding with any block function and length field | the invariant, for a block function that is a parameter |
| C50 | arbitrary (also unreachable) engine states | relation "agree on the live part" preserved by every method |
| C51-C52 | every origin of an engine | every returned digest is the standard one in checked builds; hence portability |
| C54 | `Hash::hash`, `from_engine`, `engine` of every type | from the engines' theorems |
| C55-C56 | `core::hash::Hash`, error text | prefix-freeness; positional numerals |
| C57 | `str::from_utf8` automaton | both directions, against the definition of UTF-8 |
| C58-C59 | SipHash, SHA-1, SHA-2, RIPEMD-160 rounds | explicit inverses; the feed-forward gives a unique fixed point |
| C60 | every origin of an engine, every build, every length | one result function, by induction over the nesting of engines |
| C61 | any `Tag` | exact behaviour of resumed engines |
| C62 | whole API | every program, also adaptive: code = abstract machine, outputs and panic |
| C63 | whole API | the only panics; unchecked builds run to the end |
| C64 | whole API | cutting an input is invisible to the rest of the program |
| C65 | `fmt` impls of `arr_newtype_fmt_impl!` with every `Formatter` option | case analysis of `pad_integral`; the description is functional |
| C66 | SHA-1/SHA-2/RIPEMD-160 engines | octet-level specification = FIPS 180-4 and the RIPEMD-160 paper on lists of bits, by `repr w` commuting with every operation |
| C67 | engines with recorded branches and addresses, the block functions included; the SipHash rounds (straight-line code without arrays) are single events | two runs side by side: a relation that forgets everything secret is preserved, by induction over the nesting |
| C68 | the same | call-count triples; position in the block = length mod block size also across counter wrap |
| C69 | memory, pointers with their range, `layout_allowed` (ModelMem.v) | unfolding; load after store |
| C70 | translated text of the engine API | method by method equal to the hand model (C73), then C62 |
| C71 | translated text of every engine, `hash_byte_chunks`, keyed SipHash, `const_hash` | C73 and the theorems on the hand model |
| C72 | translated text of `fixed_time_eq` | C73 and C25 |
| C73 | translated text of each engine, of HMAC over any engine, of the block functions (software, small-hash, SHA-NI) | symbolic execution of the straight-line text against the round tables; loops by induction |
| C74 | translated text of the value types: `from_slice`, `from_str`, conversions, indexing, order, `engine`, `from_engine`, `hash` | equal to the hand model, then C28-C31, C36, C48, C54 |
| C75 | translated text of the `Write` impls driven by `write_all`, `write_vectored`, `copy` | `drive` over the text equals `run_ops`, then C37 |
| C76 | translated text with a record of branches, accesses, multiplications and shifts | two-run relation through every construct; each block function by evaluating its record on symbolic contents |
| C77 | the same for `fixed_time_eq`, with its record written out | induction over the loop |
| C78 | translated text of the `fmt` impls | equal to ModelFmt, then C32, C65, C56 |
| C79 | translated text of the visitors, `SerdeHash`, `serde_impl!` and the hmac impls | case analysis on what is handed over; C74, C57; uniqueness of the answer by induction |
| C80 | translated text of `json_schema` and `schema_name` | evaluation; the pattern text parsed |
| C81 | translated text of `core::hash::Hash` of sha256t | C55, C74 |
| C82 | translated declarations and reference casts | the declared repr and fields determine size, alignment and offset |
| C83 | derives and impls in the source text | equal to the hand-written model, C36 and C55 |
| C84 | derived Debug | numerals separated by texts that do not start with a digit are unique |
| C85 | `process_block` with cfg, detection, `target_feature`, intrinsics | Boolean case analysis; C73 for the result |
| C86 | all cfg attributes, needs of items, Cargo features | truth tables over the atoms of each predicate, proved sound; closure of features by induction |
| C87 | the build with `hashes_fuzz` | scopes by computation over a sound and complete list of free variables; digests by induction over the pieces; HMAC by C08 for the stand-in |
| C88 | structs, traits, impls, derives | search over the clauses, proved sound; exactness by inversion of the clauses about each type; engines by induction over the type |
| C89 | fields and function signatures with visibility | equality of finite sets by computation, for each engine type |

The hypotheses that occur are: `wf_config c`; a slice is shorter than
`2^(usize_bits-1)` (Rust's limit on object size, used only where stated);
lengths below the counter limits (`fits`), dropped in C13 and C60; keys are
u64s.

## 4. Findings about the code

* C20: `ripemd160` writes its midstate little-endian and reads it big-endian;
  C21: `sha512::Engine::from_midstate` (and sha384, sha512/256) panics for
  every input; C22: siphash `from_midstate` loses the pending bytes and keys;
  C23: hmac `from_midstate` gives the byte count of the inner engine to the
  outer one.
* C35: the JSON schema pattern is unanchored, so it admits strings that are no
  hashes; the schema of `hmac::Hash<N>` computes `N as u32 * 2`, wrong for
  `N >= 2^31`.
* C13: without overflow checks messages beyond the counter limit get a wrong
  digest silently; 2^61 bytes is also the limit of SHA-384/512, whose standard
  allows 2^125.
* C87: `cfg(hashes_fuzz)` does not compile (`src/sha256.rs:77` names an undefined
  `e`).  If it did: tags and midstates would have no effect on hashes, so resuming
  from a midstate forgets the data before it; `const_hash` and siphash's
  `from_engine_to_u64` have no stand-in and so disagree with `hash` and `as_u64`.
* The examples in the documentation of lib.rs stand under `#[cfg(std)]`, which is no
  flag of any build (the feature would be `feature = "std"`): they are never compiled.
* C69: `hmac::Hash` lacks the `repr(transparent)` that `from_bytes_ref/mut` rely
  on; no current compiler is known to add padding, but the language allows it.
* C88: `sha256t::Hash<T>` and `Engine<T>` hold `PhantomData<T>`, so they are `Send`
  and `Sync` only if the tag is, although no tag is ever stored; `hmac::Midstate` has
  no trait but `Send`, `Sync` and `Unpin` (not `Clone`, `Debug` or `Eq`); a second public
  struct `hmac::MidState` is the same again and used nowhere.
* C84: `siphash24::Engine` derives `Debug`, which prints both keys.
* C86: with `--no-default-features --features alloc` the crate does not compile:
  `to_bytes` names `Vec`, which is not in core's prelude and imported nowhere; the
  same with `schemars` (`String`, `Box`, `std::`).  The tests for wasm32 use the
  crate wasm_bindgen_test, which Cargo.toml does not list.
* `hmac::Hash::engine::<E>/from_engine::<E>` accept any engine with the right
  digest size, not only HMAC engines (C54 is stated for all of them).
* The length error of the byte visitor says literally "N" (`stringify!(N)`);
  the documentation of `SerdeHash::N` says bits, the value is in bytes.
* C80: every type's JSON schema is named "Hash" (`schema_name`), although they
  differ; schemars uses the name as key in `definitions`.
* `sha384` and `sha512_256` have no `io::Write`; `mod impls` is only compiled
  with the feature `bitcoin-io`.
* `hmac.rs` has an unused struct `MidState` beside `Midstate`.

## 5. Not modelled

* Formatting with a precision (`{:.8}`), and width, fill and alignment for
  `hmac::Hash<N>` (src/hmac.rs:123-135), whose padding is code of
  hex-conservative and not `Formatter::pad_integral`.
* Memory: the `unsafe` reference casts `from_bytes_ref/mut` are modelled as the
  identity on values in ModelTypes.v, and in ModelMem.v on a memory of bytes
  (C69, and C82 from the text).  There the promises of the Rust reference about layouts
  (`layout_allowed`, `allowed`) and about when a reference may be made (`ref_cast`) are
  part of the model and so trusted; aliasing is not modelled beyond the range
  a reference may be used for.
* The bodies of third-party crates (hex-conservative 0.2, serde, schemars,
  bitcoin-io) and of `core`: modelled by their documented behaviour
  (`Formatter::pad_integral` and `padding` are transcribed in ModelFmt.v).
* Compiler, CPU and actual timing; `fixed_time_eq` (C27, C77), C67 and C76 are about the
  source-level trace of branches and accesses, and C67 takes the SipHash rounds
  as single steps and scalar operations (rotations, additions) as revealing
  nothing.  The semantics of the x86 intrinsics is transcribed from Intel's
  manual.
* Benchmarks and tests.

## 6. Trusted base

* Coq's kernel, including the `vm_compute` machine (coqchk rechecks those
  steps with its own reduction).
* The definitions of the Coq standard library used in statements.
* `Print Assumptions` answers `Closed under the global context` for every
  theorem: no axioms, neither own ones nor from the standard library.
* The transcription of Rust into Gallina.  Evidence for it: line-by-line
  citations (`tools/cites.py`), generated tables (`tools/gen_tables.py`),
  test vectors as `Example`s, and, for the engines, HMAC, sha256t,
  `fixed_time_eq`, `const_hash`, the value types and the `Write` impls, a
  second transcription made by a program from the source text and proved equal
  (C73-C75; formatting, serde and schema: C78-C81; declarations: C82-C84).  For C70-C89 what is trusted is
  `tools/rs2v.py` and `GenBase.v` (for C76, C77 also `TraceBase.v`: that it records
  all that is revealed; for C78-C81 also `tools/rs2v_text.py` and `TextBase.v`, for
  C82-C84 `tools/rs2v_decl.py` and `DeclBase.v`, for C85, C86 `tools/rs2v_build.py`
  and `BuildBase.v`, for C87 `tools/rs2v_fuzz.py`, for C88 `tools/rs2v_trait.py` and `TraitBase.v`,
  for C89 `tools/rs2v_api.py` and `ApiBase.v`) in place of the reading of the
  source by hand.
* That the specification files say what the standards say.  Evidence: they
  follow the structure of the standards rather than that of the code, they are
  evaluated on test vectors, and they equal the code, which was written by
  others.

## 7. Wrong programs

`tools/mutate.py` applies an edit (`seeded/mutants.py`) to the model in a
scratch copy, rebuilds, and reports which lemmas and theorems no longer hold;
each entry names the claims that the bug makes false.  A lemma whose proof
fails is cut out of the scratch copy and the build goes on, so that all
failures are found; a theorem counts as failed if it fails itself or its proof
uses a failed lemma.  A claim that still proves is a weak theorem, to be
tightened.  (A failing proof is not a refutation: proofs can break although the
statement is still true.  The sign looked for is the opposite one, a proof that
survives.)  The outcomes are in `seeded/LOG.jsonl`.
