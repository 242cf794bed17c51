# Formal model of sayantn/aes (aes_crypto 1.3.0) in Rocq/Coq 8.16.1

## 1. Shape of the development (`rocq/theories`)

**Specification** - knows nothing of the code's internals; to check a theorem's statement, read these.

| file | content |
|---|---|
| `Word.v` | machine integers as `N` with explicit wrap, byte (de)composition, the `outcome` monad (`Ret` / `Panic` / `UB`), slices |
| `Fips197.v` | FIPS 197: GF(2^8), S-box (inverse + affine map), State, rounds, KeyExpansion, Cipher, InvCipher; `Fips197_Tests.v` runs the standard's examples |
| `Spec_Api.v` | what the doc comments say `enc`, `dec`, `enc_last`, `dec_last` compute |
| `Spec_Reach.v` | which values a program can hold: the least sets closed under every public call |
| `Spec_User.v` | small user programs (encrypt bytes under a key, encrypt a message in groups of 1/2/4, convert back and forth) |
| `Spec_Cfg.v` | the README's requirements per implementation, named groups of configurations, sample configurations |
| `Spec_Fmt.v` | positional numerals, layout of `{:?}` |
| `Spec_Modes.v`, `Spec_Modes2.v`, `Spec_Aegis.v`, `Spec_AegisX.v` | the standards (CTR, CBC, CMAC, XTS, KW, AEGIS, AEGIS-X) on bytes, and the programs a user of the crate writes for them |
| `Spec_Eic.v` | the equivalent inverse cipher and its key schedule as in FIPS 197 update 1 |
| `Spec_Layout.v` | layouts the Rust reference permits for the types that are transmuted |
| `Spec_Sink.v` | the pieces of text a formatter is given, sinks that may refuse them |
| `Spec_Cost.v`, `Spec_CostClient.v` | instructions an execution runs, and the bills |
| `Spec_Leak.v` | constant time: a small imperative language, what its execution shows to an observer of branches and addresses |
| `Spec_Client.v` | calls, answers, adaptive clients and their transcripts; the ideal library |
| `Spec_ClientActual.v` | the three reference libraries of C41 |
| `Spec_Surface.v` | types, items, the documented interface; what a program can demand of it; Rust's rules for auto traits, constant patterns and constant evaluation |
| `Spec_SurfaceClient.v` | the items each call of a client uses |
| `Spec_LeakBlock.v` | a block-type call as bytes -> bytes, number of agreeing leading pieces (C43) |
| `Spec_LeakClient.v` | shapes of calls, what an observer sees of a client, which calls are meant to be constant time (C44, C45) |
| `Spec_LeakSoft.v` | counting look-ups in constant tables (C45) |
| `Spec_Threads.v` | threads sharing values: memory, steps, schedules (C42) |
| `Spec_Algebra.v` | where two states differ, columns of the state |
| `Spec_Insn.v` | the special instructions in a program of that language, the target feature each belongs to, what a configuration promises |
| `Spec_Mem.v`, `Spec_MemUser.v` | byte-addressed memory, slices at any address, aligned and unaligned pointer accesses; a user's in-place encryption of a buffer |
| `Spec_Actual.v` | what the two non-conforming builds compute |
| `Samples.v` | concrete configurations, keys, blocks and reachable values used in the `Example` beside each theorem |

**Model** - executable Gallina, each definition cites the file and lines it models.

| file | code |
|---|---|
| `Isa_x86.v`, `Isa_arm.v`, `Isa_riscv.v` | **trusted** meaning of the CPU intrinsics used, from the vendor manuals; `Isa_Tests.v` runs Intel's published examples and whole rounds from the RISC-V and Arm documentation on FIPS 197 data |
| `Interface.v` | the method set of a block type as records of functions; `impl` = the public interface of one build |
| `Model_Table.v`, `Tables.v` | `src/aes_table_based.rs` (tables copied literal by literal) |
| `Model_Bitslice.v`, `Model_Columns.v` | `src/aes_bitslice.rs`, either endianness; the array-style key schedules it shares with NEON and RV32 |
| `Model_X86.v`, `Model_Vaes.v` | `src/aes_x86.rs`, `src/aesni_x2.rs`, `src/aesni_x4.rs` |
| `Model_Arm.v`, `Model_Rv64.v`, `Model_Rv32.v` | `src/aes_arm.rs`, `src/aes_riscv64.rs`, `src/aes_riscv32.rs` |
| `Model_Wide.v` | `src/aesdefault_x2.rs`, `src/aesdefault_x4.rs` |
| `Model_Lib.v` | `src/lib.rs`: conversions, chain_enc/dec, key objects, 1/2/4-block calls |
| `Model_Cfg.v` | the `cfg_if!` blocks of `src/lib.rs`: which implementation a configuration gets |
| `Model_Fmt.v` | the formatting impls of `src/lib.rs` |
| `Model_LeakBlock.v` | the calls of the block types (rounds, chains, bit operators, is_zero, ==) as programs of `Spec_Leak`, every backend |
| `Model_Leak.v`, `Model_LeakAccel.v`, `Model_LeakSoft.v`, `Model_LeakTable.v`, `Model_Running.v` | lib.rs over a backend (`engine`): bitslice, all accelerated backends and the table-based one, and table-based block encryption with a given key object (C29), as programs of the leakage language; which of them a build runs |
| `Model_Mem.v` | `store_to`, `From<[u8;N]>`, `new`, `TryFrom<&[u8]>` of every block type again, at the level of addresses and pointers |
| `Model_MemKey.v` | the key generators that write through a `u32` slice over the array of round keys, on bytes of memory |
| `Model_Client.v` | one step of a client: each public call performed by the functions above |
| `Model_Tests.v`, `Model_Tests2.v` | each claim evaluated on literals in every backend (tests; they tell which claims a seeded bug falsifies) |
| `Strength.v`, `Strength2.v` | proofs that each of those tests follows from the *statements* of the theorems of its number (with C15, C18, C22, C26, which say that values are made and calls return): an edit that makes the test of a claim fail makes one of these statements false, however it is proved |
| `Model_Suite.v` | `src/tests.rs` and the tests of `src/aes_bitslice.rs` as functions of a build |
| `Model_Ci.v` | `.github/workflows/rust.yml`, `runtest.yml`, `ci/run-docker.sh`: the lint and test jobs and the configuration each one builds |
| `Model_Repair.v` | the crate with any subset of eight one-line edits of the defective places of C30-C32 (`aes_riscv32.rs`, `aes_bitslice.rs`, `lib.rs`) |
| `Model_Features.v` | `Cargo.toml` features and Cargo's unification of the features several crates ask for |
| `Model_Surface.v` | the declarations of every file: items with types, visibility and const-ness, fields, derives; which names each module uses; what each `const fn` calls |
| `Repo_Tests.v` | the project's own tests run on the model when it is built: all pass in the nine conforming sample configurations, fail on RV32 and big-endian constant-time |

**Proof** - `Proof_*.v` hold lemmas, `Props_*.v` the property theorems (named `Cnn_...`, after the property), each followed
by `Print Assumptions` and an `Example` meeting its hypotheses.

A Rust function that may panic, or that performs an unchecked memory access, is modelled in the
`outcome` monad; `Panic` is a Rust panic, `UB` an access the `unsafe` code must never make.
`&mut` arguments become returned values. Machine words are `N` below `2^w`; `<<` truncates, `wrapping_sub`
wraps, `!` complements within the width.

The public interface of a build (block type, X2, X4 types and their operations) is a Coq record `impl`
of plain functions; `Model_Cfg.impl_of : cfg -> option impl` maps *every* build configuration (architecture, endianness,
features, target features, debug assertions) to its implementation (`None` = the crate does not compile). Property theorems
quantify over `cfg`, over every value a program can reach, and over every key, block, slice or history.

The central proof object is `Proof_Sem.refines`: an implementation refines a byte-level semantics `sem` via encodings `f1,f2,f4`
of 16/32/64-byte strings. `Proof_Inst` shows every compiling configuration refines one: FIPS semantics for all but RV32, with
the FIPS key schedule for all but big-endian constant-time. `Proof_Reach` shows all reachable values are encodings. `Proof_Lib`
runs lib.rs over any refining implementation, once, for all of them.

## 2. Per property

- **C01, C02** backend block operations refine the byte-level FIPS functions (abstraction = the 16 bytes `Into<[u8;16]>` returns), keygen
  refines KeyExpansion, then lib.rs generically. Tables: 256-entry sweep lifted by lemma; bit-sliced S-box: byte-locality lemma + 256-sweep.
- **C03, C28** from the round lemmas only (no key-schedule correctness needed): cipher/inverse cipher over arbitrary round keys.
  C28 on RV32 separately (there C03 fails, but the functions are still permutations).
- **C04, C05, C14, C22** X2/X4 operation records (default and VAES) refine lane-wise maps.
- **C06** corollary of C01/C02 for two configurations. **C27** induction over the list of groups.
- **C07** loop invariants over the `columns` array for the array-style schedules, unrolled recurrences for the others.
- **C08** InvMixColumns/MixColumns inverse + list reversal; induction over conversion chains.
- **C09-C11, C13** per-backend refinement lemmas. **C12** induction over the key slice; pre-xor chain vs post-xor chain.
- **C15-C22** refinement to byte lists; slices as lists of any length; `UB` for out-of-range raw reads.
- **C23, C24** `Model_Fmt` produces strings; compare with a positional-numeral specification; injectivity by a parser.
- **C25, C32** decision procedure over the finite `cfg` record, stated as implications (README list).
- **C26** every public call returns `Ret _` on reachable values; table indices and array indices in range.
- **C29** the code as programs of the leakage language; proved equal to the API model; a sound checker shows equal traces for all
  secrets (bitslice); for the table backend the trace is proved to *determine* the key.
- **C36** the same for every accelerated backend: `Proof_LeakEngine` shows once that lib.rs over an engine whose expressions compute a
  `sem` computes what the API over that `sem` computes; `Proof_LeakAccel`/`Proof_LeakKeys` instantiate it (x86 with 1/2/4-block vectors, Arm, RV64, RV32).
- **C37** the same programs: the instructions in their text (a superset of those executed) are computed for every engine, size and key size, and checked
  against the features of all configurations (that space is finite, `all_cfgs`: deciding each is a proof).
  `Props_InsnClient`: the calls of a client as programs (`Model_LeakClient`, generic in what is observed of a run; with `trace` it is C44) observed by `executed`: by cases over all
  calls every executed instruction is in the text of a checked program, hence available and encodable (`C37_whatever_a_client_does`); the observed library answers as the crate does
  (`C37_observed_is_the_crate`, by the simulation of C44, since answers do not depend on what is observed). Calls that format a value are taken to execute no special instruction
  (`Model_InsnClient`: they read bytes and hand numbers to core::fmt, which is not in the language).
- **C38** `Proof_Mem`: the pointer-level code does to memory what the list-level code (C15-C17) does to the slice's contents; then induction over the groups of a message.
  Key set-up (`Spec_MemKey`, `Model_MemKey`, `Proof_MemKey`): the generators that lay a `u32` slice over the array of round keys, run on bytes of memory (checked indices, `from_raw_parts_mut`
  undefined when too long or misaligned, any compiler's layouts): a simulation of the list-of-columns key schedules, so nothing but the array changes and it ends up holding the round keys.
- **C39** `Proof_Algebra`: every build's semantics (RV32's included) is `xor k after a permutation`, lifted through lanes and chains by induction; diffusion from
  linearity of MixColumns, non-zero coefficients and injectivity of the S-box, 16 + 4 position cases with symbolic bytes.
- **C40** `Model_Client` performs every call of `Spec_Client` with the API functions of `Model_Lib`/`Model_Fmt` on numbered variables; `Proof_Client` relates its variables to those
  of the ideal library (a block to its bytes, a key object to its key) and proves one call keeps the relation and gives the same answer; induction on the client (whose
  continuations are arbitrary functions of the answers) gives equal transcripts. `Proof_ClientSafe`: invariant `every variable is reachable`, every build. Builds with a known
  defect are covered for clients restricted by `permits (level_of c)`; `C40_restrictions_needed` shows the restriction is not idle.
- **C41** `Spec_ClientActual`: three reference libraries (keys kept as round keys where the build's schedule is not FIPS's). `Proof_ClientActual`: the simulation of C40 over
  the exact semantics of C33/C34; the three are told apart by a computed client, so indistinguishability is decided exactly.
- **C42** `Spec_Threads`: a small-step machine with one memory; a call reads its thread's variables one at a time, any thread moving in between, and writes all of them back at
  its end, so a call that altered an operand it only borrows would be noticed. `Proof_Threads`: for any library with the frame property (a call changes only what it assigns)
  each thread's steps are a stuttering of its solo run (invariant over the schedule). `Proof_CrateThreads`: the crate has it. Not modelled: data races inside a write
  (excluded by Rust's aliasing rules, C38 shows which bytes are touched).
- **C43** `Model_LeakBlock` over the same engines as C36; `Proof_LeakBlock`, `Proof_LeakOps` prove each program equal to the call of the API model (chains by induction on the keys);
  traces by the checker of `Spec_Leak`, whose verdict does not depend on the number of keys. `==` (derived `PartialEq`: fields compared with `&&`) is a tree of comparisons; by
  induction on the tree its trace is an injective function of the number of leading equal fields, capped at the last (`Proof_LeakEqual`).
- **C44** `Model_LeakClient`: each call of C40's clients as a program with its trace (engines of C36, block programs of C43; constructors, conversions, `store_to`, `try_from`,
  copies as byte moves with their length tests). `Proof_LeakClient`: a simulation with the reference libraries of C41, so every client gets the crate's transcript
  (`C44_timed_is_the_crate`). `Proof_LeakWatch`: variables of two runs related by type and length only; each silent call keeps them so and shows the same (checker of `Spec_Leak`);
  induction over the clients. Formatting is outside; `==` where C43 says it is not constant time is outside; AES on the default software build is C45.
- **C45** `Model_LeakSoft`: `aes_table_based.rs` with its key schedules as an engine of the leakage language with constant tables (`Static`: a look-up shows table and index).
  `Proof_LeakSoft`: it computes the model of the backend, so C36/C43/C44's theorems that programs are the API cover the default software build too. The checker of `Spec_Leak` has a
  mode for an observer who does not see the index of a `Lookup` (same soundness proof); `Proof_LeakCount`: a static count of look-ups and of their range, sound for every execution.
- **C46** (the other side of C45) `Proof_LeakReveal`: equal traces split into equal traces of every statement (the public parts of two runs have equal lengths, by C45's checker), so the
  state before each round of each block is equal; two consecutive states give the round key between them. `Proof_LeakRevealKey`: the words key set-up passes to SubWord determine the
  key (the word recurrence run along and backwards). `Proof_LeakRevealMix`: key conversion, MixColumns, single rounds. Theorems are about the observation of ONE call of a client.
- **C47** `Spec_Assemble`: AES written by a user from `enc`/`enc_last` (`dec`/`dec_last`/`imc`) alone: SubWord read off `enc_last` of four equal columns, Algorithm 2 word by word, one
  call for each round, for all three widths; also through `chain_enc`/`chain_dec`. `Props_Assemble`: encryption is FIPS-197 on EVERY build (RV32 and big-endian constant-time included, whose
  key objects are wrong: C30-C32), decryption on all but RV32. Fold over the rounds with the byte-level semantics of `Proof_Sem`, lanes by `on_lanes_bcast`.
- **C48** `Spec_Modes`: counter mode and CBC of SP 800-38A, stated on bytes, and user programs for them that use `From<u128>`, `encrypt_4_blocks`, the wide/narrow conversions, `TryFrom`, `^`.
  `Props_Modes`: induction over the chunks, any length, any counter (wrap-around included). Undoing itself holds on every build (CTR), on all but RV32 (CBC).
- **C49** `Spec_Cost`: `executed`, the special instructions an execution of a program runs (the branch taken, every turn of a loop), and the bills: how many AES instructions key set-up,
  a round, a last round, `mc`, `imc` should take on each kind of build. `Proof_Cost`: a static count, sound for every execution, and that programs with public branches execute the
  same instructions for all data. `Props_Cost`: the exact counts for calls on 1, 2, 4 blocks, rounds, mixing, chains of any length. Counts uses of intrinsics in the source; what the
  compiler merges is not modelled. Widening of round keys (data movement, done where a key is used in the model, once in `map(Into::into)` in the source) is not on the bills.
  Whole clients: `Spec_CostClient` prices the calls of a transcript; `Props_CostClient` proves each call executes exactly that (`C49_every_call_of_every_client`, `C49_total`), by the
  simulation of C44 (lengths of the variables) and the static counts; `C49_clients` (`Props_InsnClient`) says the instruction sequence depends on the shapes of the calls only.
- **C50** `Spec_Aegis`: AEGIS-128L on bytes (checked against the draft's vectors) and user programs for it, one with eight `AesBlock::enc` per update, one with two `AesBlockX4::enc` that carry different round keys.
  Proved in `Props_Aegis` by refinement of the eight-block state, for every build that compiles: sealing, opening, and `seal = (ct, tag) <-> open = Some msg` across builds.
- **C51** `Spec_Layout` (layout rules of the Rust reference as a predicate on compilers, memory of a value, transmute, slices over variables), `Model_Layout` (the crate's types and its
  reinterpretations of memory). Proved in `Props_Layout`: every type is a sequence of primitives without padding, so memory is the concatenation of their bytes.
- **C52** `Model_Layout.r64_keygen_192_by`: RV64's `keygen_192` with the layout of its tuple left to the compiler. "Right for every key iff declaration order" (for the converse: the
  8-byte windows of one schedule are all different, so each word must be where the reader looks for it), and a permitted compiler that lays out backwards: the layout-independent claim is refuted.
- **C53** `Spec_Eic`: KEYEXPANSIONEIC and EQINVCIPHER (FIPS 197 update 1, Algorithms 4 and 5). `Props_Eic`: equivalence with INVCIPHER, contents of decrypters, behaviour of any key object from its keys.
- **C54** `Spec_Sink`: a sink is any state with any reaction to `write_str`/`write_char`; `prints_as`: the calls made, up to the first refused one. `Model_Sink`: every call of lib.rs:215-277 and of the derived `Debug`s, with `?`, the padding characters, `DebugTuple`/`DebugList`/`debug_struct_field1_finish` and `PadAdapter`. `Props_Sink`: five block formats and four `Debug`s print C23's and C24's texts to any sink; prefixes, `String`s, bounded buffers.
- **C55** `Model_Suite` (the tests, `assert_eq!` by the type's own `==`) and `Model_Ci` (jobs, feature implications of rustc for the five targets). `Props_Ci`: on every build the suite passes iff that
  build is FIPS 197 for all keys and blocks (conforming builds: from the refinement; the others are two implementations, on which a test fails by computation); a test job runs the same
  implementation as a build iff the build conforms; each test job runs what its name says, on a toolchain with the features it needs, and passes; the lint jobs "RV64", "RV32" do not.
- **C56** `Model_Repair` (`impl_with e c`: the crate with the edits `e`), `Spec_Repair` (`fips_build`: everything C30, C31 ask for; `needs`: which edits a configuration needs). `Props_Repair`: without edits
  it is the code; for all sets of edits and configurations the build compiles and is FIPS 197 iff it has the edits it needs (if: refinement of the edited backends; only if: a missing edit gives wrong
  bytes, by computation on symbolic other edits); all configurations are right iff all eight edits are made; the test suite is green iff the build is right.
- **C57** `Model_Features` (two features, no defaults, union over all dependents). `Props_Features`: a crate sees on the unified build what it would see on its own, except exactly where somebody
  else asks for constant-time on big-endian, or for nightly on RV32+Zk or big-endian Arm v8+aes (from C25, C41); constant-time is kept (C36); additivity in general is refuted.
- **C58** `Spec_Surface` (types, items, the documented interface, what a program can demand: calls, trait bounds, moves between threads, constant patterns; Rust's rules for auto traits, const patterns
  and constant evaluation), `Spec_SurfaceClient` (which items each call of the C40 clients uses), `Model_Surface`. `Props_Surface`: by cases on the selected build (C25), the items of the four or five files
  selected are the documented ones; auto traits and patterns by induction on the type; const evaluation by induction on the call graph. `C32_names_resolve`: why exactly one kind of build does not compile.
- **C59** `Spec_Modes2`: CMAC (SP 800-38B), XTS with ciphertext stealing (IEEE 1619) and key wrap (SP 800-38F) stated on bytes without mentioning the crate, then the programs a user writes for them.
  `Proof_Machine` abstracts a build to what such a program sees (blocks that are bytes; for each key a function and, except on RV32, its inverse); `Proof_Cmac`, `Proof_Xts`, `Proof_Wrap` are inductions over
  the message, the groups of four blocks and the passes, with the arithmetic of doubling in GF(2^128) (big-endian for CMAC, little-endian for XTS) proved for all values. `Props_Modes2`: the theorems, and the
  examples of RFC 4493, IEEE 1619 (vectors 1 and 15) and RFC 3394. Hypotheses: XTS texts have at least a block (the program slices), wrapped keys fit in memory (the step counter is a `u64`).
- **C60** `Spec_AegisX`: AEGIS-128X with D lanes, each an AEGIS-128L state of `Spec_Aegis`, and one program for a wide block type, used with `AesBlockX2` (D = 2) and `AesBlockX4` (D = 4).
  `Proof_AegisX`: for any D, the program's eight wide words are the rows of the D lane states (transposition); broadcasts, context words, updates, pieces and tag by induction; sealing and opening undo each
  other; one lane is AEGIS-128L. `Props_AegisX`: both widths on every build that compiles (the encryption round is the AES round on all of them, C09), with the draft's vectors.
- `Rust`, `Source`, `Props_Source`, `Props_SourceX86`, `Props_SourceRest`, `Props_SourceRv32`: not a property of the list but of the models: see §3, item 3. Long functions are followed let by let with the rest of the model as a continuation.
- **C30, C31, C32** are *false* of the code (see §4): `_refuted` theorems with witnesses, plus the true parts (hence "partial").
- **C33, C34** exact functional characterisation of the two non-conforming builds (generic column schedules with a parameterised
  first-word formula; the RV32 rounds as FIPS rounds with another row shift; an additive map is determined by 128 single-bit blocks).
- **C35** every build's schedule is KeyExpansion with some first-word formula (FIPS, RV32, big-endian); the word recurrence runs backwards.

## 3. Trusted base

1. Coq 8.16.1's kernel, including `vm_compute`. No axioms of our own. `Print Assumptions` (run in every `Props_*.v`) prints
   "Closed under the global context" for **every** property theorem. Files that import `Lia`/`Setoid` load the module type parameters
   `Coq.ssr.ssrunder.Under_rel.*` (7 of them) of the standard library; `coqchk -o` lists those, no theorem uses them.
2. The specification files listed in §1: that `Fips197.v` is FIPS 197 (checked against the standard's vectors in `Fips197_Tests.v`),
   that `Spec_*.v` say what the English says.
3. The models' faithfulness to the Rust text, in particular:
   - For the arithmetic of the two software backends (26 functions of `aes_bitslice.rs`; 33 functions and lookups and the ten tables of `aes_table_based.rs`) it is proved: `tools/translate.py`
     turns the source text token by token into syntax trees (`Source.v`; `python3 tools/translate.py --check /repo` compares), and `Props_Source` proves that each tree, evaluated with the functions
     it calls meaning their models, is its model for all arguments (`bitslice_models_are_source`, `table_models_are_source`, `tables_are_source`). The same for the operators, rounds,
     `mix`, the key expansion steps and `keygen_128` of `aes_x86.rs` and the operators and rounds of `aesni_x2.rs` and `aesni_x4.rs`, with each intrinsic meaning its definition in `Isa_x86`
     (`x86_models_are_source`, `vaes_models_are_source`), and of `aes_arm.rs` and `aes_riscv64.rs` over `Isa_arm`, `Isa_riscv` (`arm_models_are_source`, `rv64_models_are_source`),
     and of `aes_riscv32.rs` with its macro `outer!` (`rv32_models_are_source`; violation 1 below is about these functions). Trusted there: the translator, and `Rust.v`'s
     evaluation of that fragment (lets, integer operators, casts, arrays, calls).
   - `Isa_*.v`: meaning of the intrinsics, from Intel, Arm and RISC-V manuals (AESENC.., PSHUFD.., VAES 256/512; AESE/AESD/AESMC/AESIMC, VLD1/VST1..; aes64*/aes32*).
   - Rust semantics of the integer, array and slice operations used (`Word.v`), evaluation order, `debug_assert!` active iff the
     configuration's `dbg` flag is set.
   - Arithmetic overflow checks never fire: the only `+`, `-`, `/` of the sources are on indices with constant bounds (at most 60 in the key schedules, `offset + 3` with constant offsets in the
     table-based file); shift amounts are constants below the width; the one subtraction on data is `wrapping_sub`. So builds with and without overflow checks are one model.
   - Layout: that `Spec_Layout.v` says what the Rust reference says. `new` by transmute, arrays of blocks seen as `u32` columns and zeroed arrays are modelled on bytes in the
     backends' models; C51 proves that this is what any permitted layout gives. RV64 `keygen_192` is modelled as if the tuple were in declaration order (as rustc does today);
     C52 says what depends on it.
   - `core::fmt`: `{:02x}`/`{:08b}` on `u8`, `debug_tuple`/`debug_struct`-style derived output, alternate flag inheritance, the individual writes and `PadAdapter` (from core's source; C23/C24 have the text only, C54 the writes and failing sinks).
   - `rustc_ok`: which combinations of target features rustc produces (feature implications, endianness of x86/RISC-V targets). Used
     only where a theorem says so.
4. The leakage model of C29, C36, C43, C44, C45 and C46 (`Spec_Leak.v`): array/table indices, branches, loop counts, operands of multiplication and division are visible; bitwise
   operations, constant shifts/rotations, additions, local variables are not; reinterpreting an array (`View`) is free; the compiler
   preserves this. The CPU's AES, shuffle and vector instructions used by the accelerated backends take time independent of their operands
   (Intel DOIT, Arm DIT, RISC-V Zkt). Length checks of slices are left out of the programs (they depend on lengths only) except in C44, which has those of `try_from` and `store_to`.
   The table-based program of C29 starts from a given key object. Testing a register or word for zero (`IsZero`) is branch-free; `&&` in a derived `PartialEq` is a branch (an
   optimiser may remove it: C43's refutation is about the source). A struct of words is one variable in the block programs.
5. C37: the instruction -> feature table `needs` (vendor manuals), rustc's feature implications `promises` (`Spec_Insn.v`). Plain vector logic, loads, stores
   and tests of the same width are not in the instruction list (they belong to features implied by those checked); neither is code the compiler adds.
6. C38: a slice lies inside one allocation; `_mm_loadu/_mm_storeu*`, `vld1q_u8/vst1q_u8`, `read_unaligned/write_unaligned`, `[u8; N]` pointees have alignment 1.

7. C58: the rules of the Rust Reference for auto traits, constant patterns and `const fn` as written in `Spec_Surface.v`, and its list of `const` functions of the standard library.
   Lifetimes and type inference are left out: a demand names all types.

**Not modelled:** inlining/`#[target_feature]` attributes and code generation, docker images and emulators of the CI; `Copy`/`Clone` are the identity. Everything else in `src/` is modelled.

## 4. Violations found (all proved in the model)
1. RV32 (`aes_riscv32.rs`): `outer!` uses the encryption word order for decryption too; `pre_enc`/`pre_dec` xor the key
   *after* the round while `declare_chain!` expects it *before*; `keygen_128`/`192` and the tail of `keygen_256` miss `rotate_right(8)`.
   (`C30_*_refuted`, exact behaviour `C33_*`.)
2. Bit-sliced backend on big-endian targets: key schedule uses `rotate_right(8)` and little-endian `RCON` on native-endian words.
   (`C31_*_refuted`, exact behaviour `C34_*`.)
3. `lib.rs:334-347` selects the pre-xor chain on big-endian AArch64 (+aes) although the NEON backend (little-endian only) is not
   selected there, so `pre_enc` does not exist: compile error. (`C32_every_configuration_compiles_refuted`.)
4. Hazards, not violations of a documented promise: `{:?}` of key objects prints the key schedule (C24); the default software
   backend's memory accesses determine the key (C29); `==` on RISC-V and software blocks and on the two-field wide types short-circuits, also with
   feature `constant-time` (`C43_constant_time_feature_equality_refuted`; use `(a ^ b).is_zero()`, which is constant time in every build).

5. RV64 `keygen_192` reads a `repr(Rust)` nested tuple as if its layout were fixed: right exactly if the compiler keeps declaration order (C52).
6. The CI's lint jobs "RV64" and "RV32" lack `--features=nightly` and lint the software implementation; no job of the CI compiles the RV32
   implementation or a big-endian target, which is where 1-3 are. (`C55_lint_jobs_exact`, `C55_never_built`, `C55_tested_iff_conforming`.)

7. Consequence of 1-3: the Cargo features are not additive. A crate that asks for nothing encrypts wrongly on a big-endian target as soon as another crate in the
   build asks for `constant-time`. (`C57_additive_refuted`, exact extent `C57_what_others_ask_for`.)

8. `const Z: AesBlock = AesBlock::new([0; 16]); match b { Z => .., _ => .. }` compiles without target features and on RISC-V, and stops compiling with AES-NI, VAES or NEON, where
   `PartialEq` is written by hand. (`C58_source_compatible_refuted`, exact extent `C58_same_programs_exact`.)

The list 1-3 is complete and has nothing superfluous: the eight edits of `Model_Repair` make every configuration compile and follow FIPS 197, and no
smaller set does (`C56_exactly_these_edits`, `C56_all_edits_needed`).

## 5. Testing the theorems
`seeded/mutations.json` holds realistic wrong edits of the model; `seeded/harness.py` applies each in a scratch copy and rebuilds. A proof that
no longer goes through is admitted *in the scratch copy only*, so that everything after it is still checked; `Print Assumptions` of every property
theorem then tells which theorems rest on a broken proof (`theorems_failed`). Independently the tests of `Model_Tests`/`Model_Tests2` tell which
English claims the edited program falsifies (`claims_falsified`); a falsified claim none of whose theorems failed is flagged WEAK. A theorem can be in
`theorems_failed` although its claim is still true of the edited program (its proof shares a lemma with a false one), so the evidence of strength is the
pair: the claim is falsified and its theorem is among the failed. `Strength*.v` proves the other direction once and for all: the test of a claim is a
consequence of the theorem's statement, so no edit at all can falsify the test and leave the theorem provable.
`seeded/LOG.jsonl` has one line per edit.
