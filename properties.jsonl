{"id": "C01", "title": "encrypt_block is the FIPS-197 cipher", "statement": "For AES-128, AES-192 and AES-256: building Aes*Enc from a key and calling encrypt_block on a block returns, without panicking, exactly the 16 bytes FIPS-197 CIPHER produces for that key and plaintext. Holds in every build configuration whose selected backend is the table, AES-NI, NEON or RV64 one, or the constant-time one on a little-endian target (RV32 and big-endian constant-time are C30/C31).", "quantifier": "all 2^128 / 2^192 / 2^256 keys, all 2^128 plaintexts, all build configurations (arch, endianness, cargo features, target features) other than the two excluded groups", "why_tests_cant": "the key x plaintext space is astronomically large and one machine can only execute one backend; a wrong table entry, carry or lane only shows on particular bytes", "anchors": ["src/lib.rs:implement_aes!,encrypt_block,chain_enc", "src/aes_table_based.rs:AesBlock::enc,keygen_*", "src/aes_bitslice.rs:subbytes,mixcolumns,keygen_*", "src/aes_x86.rs:keygen_*", "src/aes_arm.rs:keygen_*", "src/aes_riscv64.rs:keygen_*"]}
{"id": "C02", "title": "decrypt_block is the FIPS-197 inverse cipher", "statement": "For the three key sizes: Aes*Dec built from a key (directly or through Aes*Enc::decrypter) has decrypt_block equal, byte for byte and without panic, to FIPS-197 INVCIPHER (although the code runs the equivalent inverse cipher with transformed round keys).", "quantifier": "all keys, all ciphertexts, all build configurations as in C01", "why_tests_cant": "equivalence of the straight and the equivalent inverse cipher is an algebraic fact over all states and round keys", "anchors": ["src/lib.rs:dec_round_keys,decrypt_block,chain_dec", "src/aes_table_based.rs:AesBlock::dec,imc", "src/aes_bitslice.rs:invsubbytes,invmixcolumns"]}
{"id": "C03", "title": "decryption undoes encryption and conversely", "statement": "For every key size, dec.decrypt_block(enc.encrypt_block(p)) == p and enc.encrypt_block(dec.decrypt_block(c)) == c, where dec comes from enc.decrypter() or from the same key. Holds in every compiling configuration except RV32 - including big-endian constant-time, whose key schedule is wrong (C31).", "quantifier": "all keys, all blocks, all configurations but RV32", "why_tests_cant": "universally quantified over keys and blocks", "anchors": ["src/lib.rs:AesEncrypt,AesDecrypt,decrypter,encrypter"]}
{"id": "C04", "title": "two- and four-block encryption is lane-wise single-block encryption", "statement": "encrypt_2_blocks / encrypt_4_blocks on (a,b) / (a,b,c,d) return exactly the single-block ciphertexts of each block in the same order; no lane influences another. Covers the default tuple implementation, VAES-256 and VAES-512.", "quantifier": "all keys, all blocks in every lane, all configurations", "why_tests_cant": "cross-lane leaks or swaps show only for particular lane values and only on the CPU in question", "anchors": ["src/lib.rs:encrypt_2_blocks,encrypt_4_blocks", "src/aesdefault_x2.rs", "src/aesdefault_x4.rs", "src/aesni_x2.rs", "src/aesni_x4.rs"]}
{"id": "C05", "title": "two- and four-block decryption is lane-wise single-block decryption", "statement": "decrypt_2_blocks / decrypt_4_blocks return exactly the single-block decryptions of each lane in the same order.", "quantifier": "all keys, all blocks, all configurations", "why_tests_cant": "as C04", "anchors": ["src/lib.rs:decrypt_2_blocks,decrypt_4_blocks", "src/aesdefault_x2.rs", "src/aesdefault_x4.rs", "src/aesni_x2.rs", "src/aesni_x4.rs"]}
{"id": "C06", "title": "all builds interoperate", "statement": "Ciphertext produced by the crate built in one configuration is decrypted to the original plaintext by the crate built in any other configuration (both outside C30/C31), for the same key bytes, whichever of the 1/2/4 block calls is used on either side.", "quantifier": "all ordered pairs of configurations, all keys, all plaintexts", "why_tests_cant": "a test process contains one build only", "anchors": ["src/lib.rs:cfg_if! backend selection"]}
{"id": "C07", "title": "expanded round keys are the FIPS-197 key schedule", "statement": "The Nr+1 round keys held by Aes*Enc (visible through its Debug output and through chain_enc) are the FIPS-197 KEYEXPANSION words grouped by four, for Nk = 4, 6, 8.", "quantifier": "all keys of each length, all configurations as in C01", "why_tests_cant": "schedule bugs (a missing rotation, a misplaced rcon, the Nk=8 SubWord) may need particular key bytes to show", "anchors": ["src/aes_table_based.rs:keygen_128,keygen_192,keygen_256", "src/aes_bitslice.rs:keygen_*", "src/aes_x86.rs:keyexp_192,keygen_*", "src/aes_arm.rs:keygen_*", "src/aes_riscv64.rs:keygen_*"]}
{"id": "C08", "title": "encrypter/decrypter conversions lose nothing", "statement": "enc.decrypter().encrypter() is the same object as enc (same round keys, hence same behaviour on every input), dec.encrypter().decrypter() the same as dec, and Aes*Dec::from(key) equals Aes*Enc::from(key).decrypter().", "quantifier": "all keys and any chain of conversions of any length, all configurations but RV32", "why_tests_cant": "needs InvMixColumns o MixColumns = id on all 2^128 blocks and induction over conversion chains", "anchors": ["src/lib.rs:dec_round_keys,enc_round_keys,decrypter,encrypter"]}
{"id": "C09", "title": "AesBlock::enc and enc_last perform the documented round", "statement": "x.enc(k) is ShiftRows, SubBytes, MixColumns, xor k; x.enc_last(k) the same without MixColumns - as FIPS-197 defines those, for every backend including RV32 and both endiannesses.", "quantifier": "all blocks, all round keys, all configurations", "why_tests_cant": "2^256 inputs per call", "anchors": ["src/aes_table_based.rs:enc,enc_last", "src/aes_bitslice.rs:enc,enc_last", "src/aes_x86.rs", "src/aes_arm.rs", "src/aes_riscv64.rs", "src/aes_riscv32.rs"]}
{"id": "C10", "title": "AesBlock::dec and dec_last perform the documented inverse round", "statement": "x.dec(k) is InvShiftRows, InvSubBytes, InvMixColumns, xor k; x.dec_last(k) the same without InvMixColumns. (False on RV32: C30.)", "quantifier": "all blocks, all round keys, all configurations but RV32", "why_tests_cant": "2^256 inputs per call", "anchors": ["src/aes_table_based.rs:dec,dec_last", "src/aes_bitslice.rs:dec,dec_last", "src/aes_x86.rs", "src/aes_arm.rs", "src/aes_riscv64.rs"]}
{"id": "C11", "title": "mc and imc are MixColumns and InvMixColumns, inverse to each other", "statement": "x.mc() is FIPS-197 MixColumns, x.imc() InvMixColumns; x.mc().imc() == x == x.imc().mc(). Includes the backends that compute them by composing rounds (te(td4), aesenc(aesdeclast), aes64esm(aes64ds)). (False on RV32: C30.)", "quantifier": "all blocks, all configurations but RV32", "why_tests_cant": "2^128 inputs", "anchors": ["src/aes_table_based.rs:mc,imc", "src/aes_bitslice.rs:mixcolumns,invmixcolumns", "src/aes_x86.rs:mc", "src/aes_riscv64.rs:mc"]}
{"id": "C12", "title": "chain_enc / chain_dec compute what their documentation says", "statement": "For every non-empty slice of keys, x.chain_enc(keys) == (x ^ keys[0]).enc(keys[1])...enc(keys[n-1]), likewise chain_dec, for AesBlock, AesBlockX2 and AesBlockX4, including the NEON variant that pushes the key xor through the round. An empty slice panics. (False on RV32: C30.)", "quantifier": "all blocks, all key slices of any length, all configurations but RV32", "why_tests_cant": "slice length is unbounded", "anchors": ["src/lib.rs:declare_chain!,impl_pre_encdec!"]}
{"id": "C13", "title": "a round can be undone by the advertised primitives", "statement": "(x.enc(k) ^ k).imc().dec_last(zero) == x, (x.dec(k) ^ k).mc().enc_last(zero) == x, (x.enc_last(k) ^ k).dec_last(zero) == x and (x.dec_last(k) ^ k).enc_last(zero) == x.", "quantifier": "all blocks and round keys, all configurations but RV32", "why_tests_cant": "tests.rs checks the first on one literal", "anchors": ["src/tests.rs:aesenc_test", "src/aes_table_based.rs", "src/aes_bitslice.rs", "src/aes_x86.rs", "src/aes_arm.rs", "src/aes_riscv64.rs"]}
{"id": "C14", "title": "X2/X4 round functions act lane-wise with per-lane keys", "statement": "For AesBlockX2 and AesBlockX4, each of enc, dec, enc_last, dec_last, applied to wide values converts to the tuple of the block operation on corresponding lanes, also when the lanes carry different round keys.", "quantifier": "all lane contents and lane keys, all configurations", "why_tests_cant": "quantifies over 2^512/2^1024 inputs", "anchors": ["src/aesdefault_x2.rs", "src/aesdefault_x4.rs", "src/aesni_x2.rs", "src/aesni_x4.rs"]}
{"id": "C15", "title": "byte-array conversions are lossless and agree", "statement": "For AesBlock, AesBlockX2, AesBlockX4: From<[u8;N]> and new agree, converting back with Into<[u8;N]> returns the same bytes in the same order, and every value obtainable from the API arises from some byte array. Every backend and both endiannesses.", "quantifier": "all byte arrays of 16/32/64 bytes, all configurations, all API-reachable values", "why_tests_cant": "2^128..2^512 inputs; native byte order differs per target", "anchors": ["src/aes_table_based.rs:new,store_to", "src/aes_bitslice.rs:new,store_to", "src/lib.rs:impl_common_ops!"]}
{"id": "C16", "title": "store_to writes exactly the block and nothing else", "statement": "x.store_to(dst) panics (leaving dst untouched) iff dst is shorter than 16/32/64 bytes; otherwise the first N bytes become the block's bytes and every further byte of dst is unchanged.", "quantifier": "all blocks, destination slices of every length and content, all configurations", "why_tests_cant": "slice length unbounded; several backends write through raw pointers", "anchors": ["src/aes_table_based.rs:store_to,store_u32_be", "src/aes_x86.rs:store_to", "src/aes_riscv64.rs:store_to", "src/aesdefault_x2.rs:store_to", "src/aesdefault_x4.rs:store_to", "src/aesni_x2.rs:store_to", "src/aesni_x4.rs:store_to"]}
{"id": "C17", "title": "TryFrom<&[u8]> is total, exact and in bounds", "statement": "try_from(slice) is Err(slice.len()) iff the slice is shorter than N, else Ok of the block made from the first N bytes, ignoring the rest; the unchecked pointer read behind it never reads outside the slice and never trips the debug assertion.", "quantifier": "all slices of any length and content, N in {16,32,64}, debug assertions on or off, all configurations", "why_tests_cant": "unbounded slice length; the out-of-bounds read would be undefined behaviour a test may not notice", "anchors": ["src/lib.rs:try_from_slice,array_from_slice"]}
{"id": "C18", "title": "u128 conversions are big-endian and lossless", "statement": "u128::from(AesBlock::from(v)) == v, AesBlock::from(u128::from(b)) == b, and AesBlock::from(v) has the big-endian bytes of v on every target endianness.", "quantifier": "all u128 values, all blocks, all configurations", "why_tests_cant": "2^128 values x endianness", "anchors": ["src/lib.rs:From<u128> for AesBlock,From<AesBlock> for u128"]}
{"id": "C19", "title": "equality is equality of bytes", "statement": "a == b for AesBlock, AesBlockX2, AesBlockX4 iff the byte arrays are equal (hence an equivalence relation, compatible with all conversions); covers the xor-and-test and mask-compare implementations.", "quantifier": "all pairs of values, all configurations", "why_tests_cant": "needs all pairs; a comparison ignoring one lane passes almost every test", "anchors": ["src/aes_x86.rs:PartialEq", "src/aes_arm.rs:PartialEq,is_zero", "src/aesni_x2.rs:PartialEq", "src/aesni_x4.rs:PartialEq"]}
{"id": "C20", "title": "bit operators act bytewise", "statement": "&, |, ^, ! and the assigning forms &=, |=, ^= of the three block types are the bytewise operations on the byte arrays.", "quantifier": "all pairs of values, all configurations", "why_tests_cant": "2^256+ inputs; fixed-width complement must not touch bits outside the word", "anchors": ["src/lib.rs:BitAndAssign..", "src/aes_table_based.rs", "src/aes_bitslice.rs", "src/aes_x86.rs", "src/aes_arm.rs", "src/aes_riscv64.rs", "src/aes_riscv32.rs", "src/aesdefault_x2.rs", "src/aesdefault_x4.rs", "src/aesni_x2.rs", "src/aesni_x4.rs"]}
{"id": "C21", "title": "zero, default and is_zero", "statement": "zero() and Default are the all-zero bytes; is_zero() is true iff every byte is zero; x ^ y is zero iff x == y; x ^ zero == x.", "quantifier": "all values, all configurations", "why_tests_cant": "an is_zero missing one lane is wrong only on rare inputs", "anchors": ["src/aes_table_based.rs:is_zero", "src/aes_x86.rs:is_zero", "src/aes_arm.rs:is_zero", "src/aesni_x4.rs:is_zero"]}
{"id": "C22", "title": "wide/narrow conversions keep lane order", "statement": "AesBlockX2/X4 from tuples, from a single block (broadcast) and from AesBlockX2, and back to tuples, are mutually inverse and keep order: lane i of the tuple is bytes 16i..16i+16 of the array form.", "quantifier": "all lane values, all configurations", "why_tests_cant": "lane values unbounded; insert/extract immediates differ per backend", "anchors": ["src/aesdefault_x2.rs", "src/aesdefault_x4.rs", "src/aesni_x2.rs", "src/aesni_x4.rs"]}
{"id": "C23", "title": "hex and binary formatting is faithful", "statement": "{:x}, {:X}, {}, {:?} and {:b} of an AesBlock print exactly 32 (resp. 128) digits, most significant byte first, equal to the zero-padded number u128::from(block); '#' adds 0x/0X/0b only for the hex/binary forms and switches Display/Debug to upper case without prefix; the printed text determines the block.", "quantifier": "all blocks, both alternate flags, all configurations", "why_tests_cant": "2^128 blocks; padding bugs appear only for particular nibbles", "anchors": ["src/lib.rs:Debug,Display,Binary,LowerHex,UpperHex"]}
{"id": "C24", "title": "Debug of wide blocks and key objects", "statement": "{:?} of AesBlockX2/X4 prints the lanes in order as a tuple; {:?} of Aes*Enc/Aes*Dec prints all round keys - in particular the printed text of Aes*Enc determines the secret key (a hazard for users who log it).", "quantifier": "all values/keys, all configurations", "why_tests_cant": "universally quantified; injectivity cannot be sampled", "anchors": ["src/lib.rs:Debug for AesBlockX2,AesBlockX4,derive(Debug)"]}
{"id": "C25", "title": "configuration selection is total, unambiguous and consistent", "statement": "For every configuration rustc accepts (feature implications respected) exactly one block, one X2, one X4 implementation and one chain variant are selected, the vectorised X4 only together with the vectorised X2 and AES-NI blocks, the README's requirement list is exactly the selection condition, and a user who does not enable the nightly feature never gets a nightly-only backend.", "quantifier": "all configurations", "why_tests_cant": "CI builds nine of them", "anchors": ["src/lib.rs:cfg_if!", "README.md"]}
{"id": "C26", "title": "the public API never panics or reads out of bounds on well-typed input", "statement": "Key set-up, encryption, decryption (1/2/4 blocks), conversions and rounds never panic, never index a table or key array out of range and never read outside a slice; the only panics are store_to on a short slice and chain_* on an empty slice.", "quantifier": "all inputs, all configurations, debug assertions on or off", "why_tests_cant": "absence of a panic/UB over all inputs", "anchors": ["src/lib.rs", "src/aes_table_based.rs:declare!", "src/aes_bitslice.rs:keygen_*", "src/aes_arm.rs:keygen_*", "src/aes_riscv32.rs:keygen_*"]}
{"id": "C27", "title": "batching does not matter", "statement": "Encrypting (decrypting) a message of any number of blocks gives the same bytes however it is cut into calls of encrypt_block, encrypt_2_blocks and encrypt_4_blocks, in any mixture and order of group sizes; the result is block-by-block FIPS-197 and decrypting with any other grouping returns the message.", "quantifier": "all keys, all messages of any length, all groupings, all configurations", "why_tests_cant": "unbounded messages and exponentially many groupings", "anchors": ["src/lib.rs:encrypt_block,encrypt_2_blocks,encrypt_4_blocks"]}
{"id": "C28", "title": "each key gives a permutation of blocks", "statement": "For each key, encrypt_block and decrypt_block are bijections on the 2^128 blocks: distinct plaintexts give distinct ciphertexts and every block is a ciphertext; so is each of enc(k), dec(k), enc_last(k), dec_last(k), mc, imc.", "quantifier": "all keys, all pairs of blocks, all configurations (RV32 and big-endian constant-time included)", "why_tests_cant": "injectivity over 2^256 pairs", "anchors": ["src/lib.rs", "src/aes_table_based.rs", "src/aes_bitslice.rs", "src/aes_x86.rs", "src/aes_arm.rs", "src/aes_riscv64.rs"]}
{"id": "C29", "title": "the constant-time backend has input-independent control flow and memory access", "statement": "With the constant-time feature and no accelerated backend, the sequence of memory indices accessed and branches taken by key set-up, encryption and decryption does not depend on key or data; the default table-based backend does not have this property.", "quantifier": "all pairs of keys and blocks, both endiannesses", "why_tests_cant": "two-run (relational) property over all pairs of inputs", "anchors": ["src/aes_bitslice.rs", "src/aes_table_based.rs:declare!", "README.md"]}
{"id": "C30", "title": "RV32 backend conforms to FIPS-197", "statement": "On RISC-V RV32 with zkne+zknd (nightly), the crate encrypts, decrypts and expands keys as FIPS-197 says and dec/mc/imc/chain_* do what is documented.", "quantifier": "all keys and blocks on RV32", "why_tests_cant": "CI only lints this target, never runs it", "anchors": ["src/aes_riscv32.rs", "src/lib.rs:declare_chain!"]}
{"id": "C31", "title": "big-endian constant-time backend conforms to FIPS-197", "statement": "On a big-endian target with the constant-time feature the crate computes FIPS-197 AES.", "quantifier": "all keys and blocks on big-endian targets", "why_tests_cant": "CI has no big-endian target", "anchors": ["src/aes_bitslice.rs:keygen_*,ror8_32"]}
{"id": "C32", "title": "every configuration the cfg logic accepts compiles", "statement": "In every configuration rustc accepts, the selected backend provides every method lib.rs calls on it (pre_enc/pre_dec for the pre-xor chain variant).", "quantifier": "all configurations", "why_tests_cant": "CI builds nine of them", "anchors": ["src/lib.rs:cfg_if! (chain)", "src/aes_arm.rs:pre_enc,pre_dec"]}
{"id": "C33", "title": "exactly what the RV32 backend computes", "statement": "Although it is not AES (C30), the RV32 zkne+zknd build computes a fixed, describable function: its round keys are KeyExpansion without RotWord (AES-128/192; for AES-256 only the last such step lacks it, so the first 14 round keys are right); dec/dec_last/mc/imc are the documented operations with ShiftRows in the wrong direction, and agree with the documentation exactly on blocks whose rows 1 and 3 have period two; chain_* adds each key after its round; encrypt_block is CIPHER with the key list 0,k0,..,k(n-3),k(n-2)^k(n-1),kn; encrypter()/decrypter() restores an object after two pairs of conversions, not after one.", "quantifier": "all keys of the three sizes, all blocks, all chains, all RV32 zk configurations", "why_tests_cant": "a known-answer test shows the output is wrong for one input; which function it is, and that ciphertext produced on RV32 can be recovered elsewhere with that function, is a statement over all keys and blocks", "anchors": ["src/aes_riscv32.rs: outer!, keygen_128, keygen_192, keygen_256, pre_enc, pre_dec, mc, imc", "src/lib.rs: chain_enc_with_pre, decrypter, encrypter"]}
{"id": "C34", "title": "exactly what the big-endian constant-time build computes", "statement": "On a big-endian target with the constant-time feature, the round keys are KeyExpansion with RotWord turning the other way and Rcon added to the last byte instead of the first; encryption and decryption are FIPS-197 CIPHER and INVCIPHER run on those round keys.", "quantifier": "all keys of the three sizes, all blocks, all such configurations that compile", "why_tests_cant": "the claim is equality of functions on all keys and blocks, on targets the project's tests do not run on", "anchors": ["src/aes_bitslice.rs: keygen_128, keygen_192, keygen_256, sub_word, RCON", "src/lib.rs: encrypt_block, decrypt_block"]}
{"id": "C35", "title": "keys never collide, and adjacent round keys give the key away", "statement": "Two different keys of the same size never produce equal Aes*Enc objects nor equal Aes*Dec objects; any one round key of AES-128, and any two adjacent round keys of AES-192/256, of an Aes*Enc object determine the key.", "quantifier": "all pairs of keys, all positions in the schedule, all configurations rustc can produce (RV32 and big-endian constant-time included)", "why_tests_cant": "injectivity over 2^128..2^256 keys; no test can compare all pairs", "anchors": ["src/*: keygen_128, keygen_192, keygen_256", "src/lib.rs: implement_aes! From<[u8; N]>, decrypter"]}
{"id": "C36", "title": "accelerated implementations, and every build with feature constant-time, run in constant time", "statement": "In a build that uses AES-NI, VAES, Neon or RISC-V scalar crypto, and in every build with the constant-time feature, which branches are taken, how often loops run, which array and table elements are read or written and the operands of variable-time arithmetic during key set-up, one/two/four-block encryption, decryption and encrypter()/decrypter() conversion are the same for all keys of one size and all data (README: the accelerated implementations are all constant-time; the constant-time feature matters only without them).", "quantifier": "all keys and data of a given size (any two), all three key sizes, calls on 1, 2 and 4 blocks, all configurations rustc can produce that are accelerated or have the feature", "why_tests_cant": "non-interference relates all pairs of secrets; a timing test samples a few on one machine", "anchors": ["README.md:23-25", "src/aes_x86.rs", "src/aesni_x2.rs", "src/aesni_x4.rs", "src/aes_arm.rs", "src/aes_riscv64.rs", "src/aes_riscv32.rs", "src/lib.rs: implement_aes!"]}
{"id": "C37", "title": "no illegal instruction: whatever a client does, a build executes only instructions its target features promise", "statement": "The code a configuration selects for key set-up, one/two/four-block encryption, decryption and key-object conversion contains only special CPU instructions belonging to a target feature that configuration enables (so on a CPU that has the promised features it never dies with an illegal instruction); builds without acceleration contain none; accelerated builds do use the AES instructions. The same holds for every client: whatever calls it makes, in any order and choosing by the answers, each special instruction executed in each of its calls is one the target features promise, with an operand (immediate, byte select, round number, vector width) the instruction set allows; a build without acceleration executes no special instruction at all.", "quantifier": "all configurations rustc can produce, all key sizes, 1/2/4-block calls, all three programs; all clients (adaptive sequences of calls)", "why_tests_cant": "a test runs in one configuration on one CPU, whose features are a superset of those promised", "anchors": ["README.md: Warning, table of implementations", "src/lib.rs: cfg_if! (backend selection)", "src/aes_x86.rs", "src/aesni_x2.rs", "src/aesni_x4.rs", "src/aes_arm.rs", "src/aes_riscv64.rs", "src/aes_riscv32.rs"]}
{"id": "C38", "title": "slices at any address: no misaligned or out-of-slice access, nothing else touched", "statement": "store_to writes exactly the block's bytes at the start of the slice, wherever it starts in memory, and panics before touching memory if the slice is too short; TryFrom<&[u8]> reads exactly those bytes; neither performs a misaligned or out-of-slice access; encrypting or decrypting a buffer where it lies, in groups of 1/2/4 blocks, changes only the buffer, gives the same bytes as the value-level calls, and encryption followed by decryption (in other groups) restores all of memory. Key set-up that writes the round keys through a pointer (NEON, RV32, constant-time) makes no access outside its array or misaligned, changes nothing but that array, and leaves in it the round keys of the key object.", "quantifier": "all addresses and lengths of slices, all memory contents, all addresses of the temporaries, all groupings, keys, key sizes, all configurations rustc can produce (the round trip: all but RV32; FIPS-197 result: conforming ones); for key set-up: all keys, all addresses of the array, all compilers' layouts, all three pointer-based back ends", "why_tests_cant": "undefined behaviour at unaligned addresses usually goes unnoticed in a test; all addresses and memories must be covered", "anchors": ["src/lib.rs: TryFrom<&[u8]>, array_from_slice, try_from_slice", "src/aes_x86.rs: store_to, From", "src/aesni_x2.rs", "src/aesni_x4.rs", "src/aes_arm.rs", "src/aes_riscv64.rs: store_to", "src/aes_riscv32.rs: store_to", "src/aes_bitslice.rs: store_to", "src/aes_table_based.rs: store_to", "src/aesdefault_x2.rs", "src/aesdefault_x4.rs", "src/aes_bitslice.rs, src/aes_arm.rs, src/aes_riscv32.rs: keygen_128/192/256"]}
{"id": "C39", "title": "the round functions compose: key added last, linear mixing, chains are permutations, full diffusion in two rounds", "statement": "x.round(a ^ b) = x.round(a) ^ b for enc, dec, enc_last, dec_last at every width; mc and imc are linear; chain_enc and chain_dec with any non-empty list of keys are permutations of the blocks; two blocks differing in one byte differ in exactly the four bytes of one column after one enc (or dec) and in all sixteen bytes after two.", "quantifier": "all blocks, keys, chain lengths, byte positions, all configurations rustc can produce (dec diffusion: all but RV32)", "why_tests_cant": "bijectivity and diffusion range over all pairs of 2^128 blocks and all keys; chains have unbounded length", "anchors": ["src/lib.rs: chain_enc, chain_dec, pre_enc chains", "src/*: AesBlock::enc, dec, enc_last, dec_last, mc, imc", "src/aesdefault_x2.rs", "src/aesdefault_x4.rs", "src/aesni_x2.rs", "src/aesni_x4.rs"]}
{"id": "C40", "title": "no client can tell a build from the FIPS-197 ideal library, or from another build", "statement": "A program that makes any sequence of calls of the public API (constructors, conversions, operators, rounds, chains, key objects, encryption, decryption, formatting, store_to, comparisons, copies), choosing each call from everything it has seen so far, sees exactly the bytes, numbers, booleans, texts, errors and panics that an ideal library would show which keeps a block as its bytes and a key object as its key and answers with FIPS 197; hence two builds give it the same transcript. Whatever it does, no call is undefined behaviour, and only a chain without keys and store_to into too short a buffer panic.", "quantifier": "all finite adaptive clients, all literals, all configurations rustc can produce (conforming ones: every client; RV32 and big-endian constant-time: clients that avoid the calls C30/C31 show broken; absence of undefined behaviour: every client on every build)", "why_tests_cant": "the set of adaptive call histories is infinite; a test replays one history in one configuration", "anchors": ["src/lib.rs: the whole public API", "src/aes_*.rs, src/aesni_*.rs, src/aesdefault_*.rs", "README.md"]}
{"id": "C41", "title": "every build, defective ones included, is one of exactly three libraries", "statement": "On every build rustc can produce, every client program sees exactly what one of three small reference libraries would show: the FIPS-197 one; the FIPS-197 one with the wrong byte order in key expansion (big-endian with the constant-time feature); the RV32 one with its own key expansion, decryption rounds and chains (C33). Some client can tell two builds apart if and only if exactly one of them is an RV32 Zkne+Zknd build or exactly one of them is a big-endian constant-time build.", "quantifier": "all finite adaptive clients without restriction, all configurations rustc can produce, all pairs of them", "why_tests_cant": "ranges over all adaptive call histories and all pairs of builds; indistinguishability is a statement about every client", "anchors": ["src/lib.rs: the whole public API", "src/aes_riscv32.rs", "src/aes_bitslice.rs: keygen_128, keygen_192, keygen_256"]}
{"id": "C42", "title": "key objects and blocks can be shared between threads under every schedule", "statement": "Let one thread make some blocks and key objects and then any number of threads use them through shared references, each running its own adaptive client, their reads and writes of memory interleaved in any way. Each thread sees exactly the transcript it would see alone with the reference library of the build (FIPS 197 for a conforming one), the shared values never change, and a thread finishes after a number of its own steps that does not depend on the others or on the schedule.", "quantifier": "all numbers of threads, all clients, all schedules, all shared values, all configurations rustc can produce", "why_tests_cant": "the number of interleavings is unbounded; a stress test samples a few on one machine", "anchors": ["src/lib.rs: AesNEnc, AesNDec methods taking &self", "src/lib.rs: BitAndAssign, BitOrAssign, BitXorAssign (the only &mut self)"]}
{"id": "C43", "title": "block operations are constant time, except == which shows how many leading fields agree", "statement": "On every build with an accelerated implementation or the constant-time feature, enc, enc_last, dec, dec_last, mc, imc and chains of any number of keys on AesBlock, AesBlockX2 and AesBlockX4 make the same branches and memory accesses whatever the operands; so do &, |, ^, ! and is_zero on every build. The comparison a == b branches on one field after the other: two comparisons look the same to an observer if and only if the same number of leading fields (the last one excluded) agree, so == is constant time exactly for the types compared in one piece; every == is so only in builds with AES-NI, VAES and avx512f.", "quantifier": "all operands, all numbers of chain keys, all widths, all configurations rustc can produce", "why_tests_cant": "relates the executions for every two tuples of operands; timing measurements sample a few", "anchors": ["README.md:23-25", "src/aes_*.rs, src/aesni_x2.rs, src/aesni_x4.rs, src/aesdefault_x2.rs, src/aesdefault_x4.rs: enc, dec, is_zero, PartialEq, bit operators", "src/lib.rs: chain_enc, chain_dec"]}
{"id": "C44", "title": "a client's timing shows only which calls it makes", "statement": "On every build that has an accelerated implementation or the constant-time feature, take any two programs using the crate (adaptive ones included: the next call may depend on earlier answers) that make calls of the same shapes: the same functions in the same order on the same variables, with literals of the same lengths. If none of the calls is formatting or a == that C43 says is not constant time, then the branches and memory accesses of both runs are the same, call by call, whatever the keys, plaintexts, ciphertexts and other bytes. On the default software build the same holds for all calls that do not compute AES. The observed programs answer exactly as the crate does.", "quantifier": "all clients (finite trees of calls over any number of variables), all keys and data, all configurations rustc can produce", "why_tests_cant": "relates the observable behaviour of every two runs of every client; a timing test samples a few inputs of one client", "anchors": ["README.md:23-25", "src/lib.rs: AesBlock, AesBlockX2, AesBlockX4, Aes{128,192,256}{Enc,Dec}", "src/aes_*.rs, src/aesni_x2.rs, src/aesni_x4.rs, src/aesdefault_x2.rs, src/aesdefault_x4.rs"]}
{"id": "C45", "title": "the default software build shows nothing but which table entries it reads", "statement": "On a build with neither an accelerated implementation nor the constant-time feature, key set-up, encryption, decryption, key conversion, single rounds, MixColumns and chained rounds execute the same branches and the same memory accesses whatever the key and the data, except for which entry of one of the ten constant tables each look-up reads: their order, the table of each and their number are fixed (4 per SubWord of the key schedule, 16 per round and block, 32 per round key mixed), and every look-up is inside its table. So do whole clients: two programs making calls of the same shapes (C44) cannot be told apart by an observer who does not see which entries are read. The observed programs return exactly what the API returns.", "quantifier": "all keys of all sizes, all messages of 1, 2 or 4 blocks, any number of chained keys, all clients, all configurations that run the default software implementation (little- and big-endian)", "why_tests_cant": "a statement about every pair of executions, and about what the accesses do not depend on; a timing test sees neither the accesses nor the absence of a dependence", "anchors": ["README.md:20-25", "src/aes_table_based.rs: AesBlock, enc, dec, enc_last, dec_last, mc, imc, keygen_128, keygen_192, keygen_256, declare!", "src/lib.rs: chain_enc, chain_dec, Aes{128,192,256}{Enc,Dec}"]}
{"id": "C46", "title": "on the default software build, watching the table look-ups of one call gives away the key and the message", "statement": "On a build with neither an accelerated implementation nor the constant-time feature, the sequence of table entries read by a single call determines the secrets the call works on: key set-up (for encryption or for decryption) determines the key, converting a key object determines the key, encrypting or decrypting one, two or four blocks with an already made key object determines the key and all the blocks, MixColumns and its inverse determine the block, and a single round determines its first operand - and nothing about its second, the round key. Two calls are indistinguishable to this observer exactly if those secrets are equal.", "quantifier": "all pairs of keys of each size, all pairs of messages of 1, 2, 4 blocks, all blocks and round keys, little- and big-endian targets", "why_tests_cant": "injectivity of the observation over all 2^128..2^256 keys and all messages; a test can only compare some pairs", "anchors": ["src/aes_table_based.rs: enc, dec, enc_last, dec_last, mc, imc, sub_word, keyexp_128, keyexp_192, keyexp_256_1, keyexp_256_2, keygen_128, keygen_192, keygen_256", "src/lib.rs: Aes{128,192,256}{Enc,Dec}, dec_round_keys, enc_round_keys", "README.md:20-25"]}
{"id": "C47", "title": "AES assembled from the single-round functions is FIPS-197 on every build, even where the key objects are not", "statement": "A user who ignores the key objects and writes AES from the block API - S-box of the key schedule taken from enc_last on a block of four equal words, key expansion word by word, (x ^ k0), then one enc per round and enc_last - gets FIPS-197 encryption for one-, two- and four-block types on every build that compiles, including RV32 with Zkne/Zknd and big-endian constant-time builds whose key objects are wrong. With dec, dec_last and imc he gets FIPS-197 decryption on every build but RV32, and so he does with chain_enc and chain_dec given the round keys as slices. On conforming builds the assembled cipher and the key objects are interchangeable.", "quantifier": "all builds, key sizes, keys, messages, and groupings into 1/2/4-block calls", "why_tests_cant": "ranges over all keys and messages and over build configurations that cannot all be run", "anchors": ["src/aes_*.rs: enc, enc_last, dec, dec_last, imc, zero, From<[u8; 16]>, BitXor", "src/aesdefault_x2.rs, src/aesdefault_x4.rs, src/aesni_x2.rs, src/aesni_x4.rs: AesBlockX2, AesBlockX4", "src/lib.rs: chain_enc, chain_dec, Aes{128,192,256}{Enc,Dec}"]}
{"id": "C48", "title": "counter mode and CBC built on the batch functions are those of SP 800-38A", "statement": "Counter mode written with AesBlock::from(u128), u128::wrapping_add, AesBlockX4::from of four blocks, encrypt_4_blocks and ^ (four blocks at a time, then single blocks, the last possibly partial) equals SP 800-38A CTR for every text length and initial counter, wrap-around included, on every conforming build; on every build at all, running it twice gives the text back. CBC written with encrypt_block, and decrypted four blocks at a time with decrypt_4_blocks, AesBlockX4 taken apart and rebuilt from the previous blocks, equals SP 800-38A CBC on every conforming build, and decryption undoes encryption on every build but RV32.", "quantifier": "all builds, key sizes, keys, initial counters and IVs, texts of any length (CBC: any number of blocks)", "why_tests_cant": "all lengths and counters, boundaries between the batched and the single-block part, all builds", "anchors": ["src/lib.rs: From<u128> for AesBlock, encrypt_4_blocks, decrypt_4_blocks, encrypt_block, decrypt_block, try_from_slice", "src/aesdefault_x4.rs, src/aesni_x4.rs: From for AesBlockX4 and tuples, BitXor"]}
{"id": "C49", "title": "how many AES instructions a call executes: fixed by key size, blocks and build; four blocks for the price of one with VAES-512", "statement": "On every build the sequence of special CPU instructions that a call of the API executes is the same for all keys and messages of the same lengths. The number of AES instructions is exactly: for key set-up one AESKEYGENASSIST (x86) / AESE (NEON) / AES64KS1I plus one AES64KS2 per pair of words (RV64) / four AES32ESI (RV32) per SubWord of FIPS-197; for each vector of blocks Nr-1 rounds and a last round, each one AESENC/AESENCLAST (x86, as wide as the build's vectors), AESE+AESMC / AESE (NEON), 2 AES64ESM / AES64ES (RV64), 16 AES32ESMI / AES32ESI (RV32), and the same with the decryption instructions; Nr-1 InvMixColumns for a decryption object. So with vaes+avx512f encrypting or decrypting four blocks executes as many AES instructions as one block; with vaes alone two blocks cost as much as one; elsewhere every block costs the same; software builds execute none. A single round of the block types and a chain of q keys cost one round and q-1 rounds. On every build, the selected implementation executes at most as many AES instructions per call as any other accelerated one whose README requirements the build meets. For every client (any adaptive sequence of calls), the AES instructions executed in each call are exactly those of this price list applied to its transcript, in which only the functions called, the number of keys of a chain and the key sizes of key objects matter; and two clients whose calls have the same shapes make the crate execute the same instruction sequence call by call, comparisons and the table-based implementation included.", "quantifier": "all builds, key sizes, keys, messages, group sizes 1/2/4; chains of every length; all clients", "why_tests_cant": "instruction counts for all data and all builds (other architectures included) cannot be observed by unit tests", "anchors": ["src/aes_x86.rs, src/aesni_x2.rs, src/aesni_x4.rs, src/aes_arm.rs, src/aes_riscv64.rs, src/aes_riscv32.rs: enc, dec, enc_last, dec_last, mc, imc, keygen_128/192/256", "src/lib.rs: chain_enc, chain_dec, encrypt_block, encrypt_2_blocks, encrypt_4_blocks, decrypt_*, dec_round_keys, enc_round_keys"]}
{"id": "C50", "title": "AEGIS-128L built from the block types is AEGIS-128L, on every build", "statement": "A user who implements the authenticated cipher AEGIS-128L from AesBlock::enc, ^, &, == and the byte conversions gets exactly its ciphertext and tag for every key, nonce, associated data and message of any length, and on opening gets the message exactly when the tag is right. The same holds when the eight rounds of an update are done as two AesBlockX4::enc with a different round key in each lane. This is so on every build that compiles, including riscv32 with Zkne/Zknd and the big-endian constant-time build, whose AES itself is wrong. What one build seals every other build opens, and nothing else opens.", "quantifier": "all builds (and pairs of builds), keys, nonces, tags, associated data and messages of any length, in whole bytes", "why_tests_cant": "the hundreds of dependent rounds, xors and ands of a sealing feed each other; every length and every pair of builds would need trying", "anchors": ["src/lib.rs: AesBlock and AesBlockX4 operators, From conversions", "src/aes_x86.rs, src/aesni_x2.rs, src/aesni_x4.rs, src/aesdefault_x2.rs, src/aesdefault_x4.rs, src/aes_arm.rs, src/aes_riscv64.rs, src/aes_riscv32.rs, src/aes_bitslice.rs, src/aes_table_based.rs: enc, BitXor, BitAnd, PartialEq, From, into"]}
{"id": "C51", "title": "the block types are 16, 32 and 64 bytes without padding, and every reinterpretation of memory in the crate is sound", "statement": "With every compiler that keeps to the layout rules of the Rust reference, on every build, AesBlock, AesBlockX2 and AesBlockX4 occupy exactly 16, 32 and 64 bytes (n blocks 16 n), every one of them part of the value. Every transmute in new is between types of one size and reads only initialised bytes, and gives the block whose memory is the given bytes; every slice of u32 laid over an array of blocks in key set-up covers the array exactly, in bounds and aligned; zeroed blocks are zero columns, and the columns written through the slice are, read as blocks, the round keys the key schedule describes.", "quantifier": "all builds, all layouts the Rust reference permits, all byte arrays and column arrays", "why_tests_cant": "a test sees one compiler's layout choice; padding, alignment and uninitialised reads are undefined behaviour that a passing test does not exclude", "anchors": ["src/aes_x86.rs, src/aes_arm.rs, src/aes_riscv64.rs, src/aes_riscv32.rs, src/aes_bitslice.rs, src/aes_table_based.rs: struct AesBlock, new", "src/aesni_x2.rs, src/aesni_x4.rs, src/aesdefault_x2.rs, src/aesdefault_x4.rs: struct AesBlockX2, AesBlockX4, new", "src/aes_arm.rs, src/aes_riscv32.rs, src/aes_bitslice.rs: keygen_128, keygen_192, keygen_256 (from_raw_parts_mut, zeroed)"]}
{"id": "C52", "title": "RV64's AES-192 keys are right exactly if the compiler lays a tuple out in declaration order, which Rust does not promise", "statement": "On riscv64 with Zkne and Zknd, an Aes192Enc made from a key holds the FIPS-197 round keys for every key if and only if the compiler lays out the nested tuple that key set-up transmutes in declaration order. The Rust reference permits compilers that do not; with such a compiler the round keys are wrong for some key. (A compiler that adds padding does not compile the crate: the sizes differ.)", "quantifier": "all layouts the Rust reference permits, all 24-byte keys", "why_tests_cant": "a test sees the layout of one compiler version; the order is unspecified and may change with the next (or with -Z randomize-layout)", "anchors": ["src/aes_riscv64.rs: keygen_192 (mem::transmute of a tuple)"]}
{"id": "C53", "title": "decrypters hold the key schedule of the equivalent inverse cipher, and every key object does exactly what its round keys say", "statement": "An Aes*Dec made from a key (directly or through an Aes*Enc) holds, in the order shown by Debug, exactly the round keys of FIPS-197's KEYEXPANSIONEIC, last round first. Every key object a program can hold computes FIPS-197's CIPHER (encrypters) or EQINVCIPHER (decrypters) under the round keys it holds - also on the big-endian constant-time build, whose round keys are not the standard's. And EQINVCIPHER under KEYEXPANSIONEIC is INVCIPHER, as the standard claims.", "quantifier": "all conforming builds, key sizes and keys (schedule); all builds but RV32, all reachable key objects and blocks (behaviour)", "why_tests_cant": "a wrong order or a missing InvMixColumns in one round key shows only for some inputs, and every build would need running", "anchors": ["src/lib.rs: decrypter, encrypter, dec_round_keys, enc_round_keys, encrypt_block, decrypt_block, implement_aes!"]}
{"id": "C54", "title": "printing works on every sink, including one that fails", "statement": "Formatting a block ({:b}, {:x}, {:X}, {}, {:?}), a wide block ({:?}) or a key object ({:?}), with or without '#', sends its writer the text of C23/C24 in order and nothing else; it stops at the first write the writer refuses and returns that error, makes no further write after it, and returns Ok exactly when no write was refused; it never panics. So a String gets the whole text, a bounded buffer never receives more than fits and the result is Err exactly when the text does not fit, and what any writer has accepted is a prefix of the text.", "quantifier": "all builds, all reachable blocks, wide blocks and key objects, all option combinations, all writers (any state, any reaction)", "why_tests_cant": "the writer is arbitrary user code that may fail at any write", "anchors": ["src/lib.rs: impl Debug/Display/Binary/LowerHex/UpperHex for AesBlock, impl Debug for AesBlockX2/AesBlockX4, derive(Debug) in implement_aes!"]}
{"id": "C55", "title": "what a green test suite and CI mean", "statement": "On every build of the crate, cargo test passes if and only if that build encrypts and decrypts every block under every key of every size as FIPS 197 says. Debug assertions aside, a test job of the CI runs the same code as a build if and only if that build conforms to FIPS 197 (the defective builds are exactly those no test job runs). Each test job runs the implementation it is named after, on a toolchain that has the unstable features the build needs, and passes; each lint job lints the implementation it is named after except \"RV64\" and \"RV32\", which lint the table-based software implementation; no job compiles the RV32 implementation, a big-endian target or a release build.", "quantifier": "all configurations rustc can produce that compile, all keys, all blocks, all jobs of the workflow", "why_tests_cant": "it is a statement about what the tests themselves can and cannot see; it compares them with every input on every build", "anchors": ["src/tests.rs", "src/aes_bitslice.rs: test_subbytes, test_invsubbytes", ".github/workflows/rust.yml", ".github/workflows/runtest.yml", "ci/run-docker.sh", "src/lib.rs: cfg_if! blocks"]}
{"id": "C56", "title": "the defects are exactly eight edits", "statement": "Take the crate with any subset of these eight edits: on RV32 the word order of the decryption rounds, the order of key addition and round in pre_enc/pre_dec, the missing rotation in the key schedule of each key size; on big-endian constant-time builds the rotation and the position of the round constants in the key schedule; in lib.rs the endianness condition of the chain. A configuration compiles and does everything FIPS 197 asks (ciphers on any grouping of blocks, key schedule, round functions, chains) if and only if it has the edits that concern it; without one of them it encrypts or decrypts some block wrongly or does not compile. All configurations are right if and only if all eight edits are made. On the configurations of C01 the edits are harmless. The crate's tests are green on an edited build if and only if that build follows FIPS 197.", "quantifier": "all 256 subsets of the edits, all configurations rustc can produce, all keys, all messages", "why_tests_cant": "the repaired builds are right for every key and message only by proof; and that nothing else is wrong on these builds is a universal statement", "anchors": ["src/aes_riscv32.rs: outer!, pre_enc, pre_dec, keygen_128, keygen_192, keygen_256", "src/aes_bitslice.rs: RCON, keygen_128, keygen_192, keygen_256", "src/lib.rs: 334-347"]}
{"id": "C57", "title": "features other crates switch on", "statement": "Cargo compiles the crate once, with the union of the features all dependent crates ask for. A crate that compiles with the features it asked for also compiles with the union, and no client of it sees any difference, except in exactly these situations: another crate asks for constant-time on a big-endian target (results change), or for nightly on RV32 with the AES instructions (results change) or on big-endian Arm v8 with the AES instructions (no longer compiles). On every little-endian target other than RV32 with the AES instructions features are additive. A crate that asks for constant-time gets constant-time encryption and decryption whatever the others ask for. Additivity on all targets is false.", "quantifier": "all targets rustc can produce, all finite lists of feature requests, all clients", "why_tests_cant": "it compares every client on every target under every combination of requests", "anchors": ["Cargo.toml: [features]", "src/lib.rs: cfg_if! blocks"]}
{"id": "C58", "title": "one interface for every build", "statement": "Every build that compiles offers exactly the documented interface: the same functions with the same types and the same const fns, the same trait implementations with the same associated types, and nothing else; all its types can be sent to and shared between threads; new can be evaluated at compile time for all three block types. A program that compiles with one build compiles with every other, unless it uses a constant block as a match pattern: that compiles exactly with the builds whose blocks derive their equality (no target features, and RISC-V), and never for key objects; so two builds accept the same programs exactly if both or neither derive it.", "quantifier": "all pairs of configurations that compile, all programs (finite lists of demands on the interface)", "why_tests_cant": "a test is compiled with one configuration at a time and makes the demands its author thought of; the property compares all programs on all configurations", "anchors": ["src/lib.rs: cfg_if! blocks, trait AesEncrypt, trait AesDecrypt", "src/common.rs: impl_common_ops!, declare_chain!", "src/aes_x86.rs, aes_arm.rs, aes_riscv64.rs, aes_riscv32.rs, aes_table_based.rs, aes_bitslice.rs: AesBlock", "src/aesni_x2.rs, aesni_x4.rs, vaes_*.rs, aesdefault_x2.rs, aesdefault_x4.rs"]}
{"id": "C59", "title": "CMAC, XTS with ciphertext stealing and key wrap built on the API are those of the standards", "statement": "CMAC (SP 800-38B) written with encrypt_block, From<u128>, TryFrom, ^, zero and store_to gives, for every message of any length including none, the tag of the standard. XTS-AES (IEEE 1619) written with encrypt_4_blocks / decrypt_4_blocks for groups of four blocks, single blocks for the rest and ciphertext stealing for a partial last block equals the standard for every data unit of at least one block and every unit number. Key wrap KW (SP 800-38F, RFC 3394) written with 64-bit halves of u128 blocks equals the standard, wrapping and unwrapping. On every build but RV32: XTS decryption gives back the text and keeps the length, and unwrapping succeeds on exactly the results of wrapping under the same key, returns what was wrapped, and never panics.", "quantifier": "all conforming builds (round trips: all builds but RV32), key sizes, keys, unit numbers, messages and texts of every length, key data of every number of semiblocks", "why_tests_cant": "all lengths (boundaries between batches, single blocks and the stolen block), all keys and messages, all builds; 'accepts nothing but wrapped keys' ranges over all ciphertexts", "anchors": ["src/lib.rs: encrypt_block, decrypt_block, encrypt_4_blocks, decrypt_4_blocks, From<u128> for AesBlock, From<AesBlock> for u128, try_from_slice", "src/aesdefault_x4.rs, src/aesni_x4.rs: From<(AesBlock, AesBlock, AesBlock, AesBlock)>, BitXor", "src/aes_*.rs: new, store_to, zero, BitXor"]}
{"id": "C60", "title": "AEGIS-128X2 and AEGIS-128X4 built from AesBlockX2 and AesBlockX4 are the draft's ciphers on every build", "statement": "A program that keeps each of the eight AEGIS state words of all lanes in one AesBlockX2 (two lanes) or AesBlockX4 (four lanes) - broadcasting key, nonce and constants with From<AesBlock>, loading contexts and data with From<[u8; 32]> / From<[u8; 64]>, updating with enc, ^ and &, writing with store_to and taking the blocks apart for the tag - computes exactly AEGIS-128X2 / AEGIS-128X4 of draft-irtf-cfrg-aegis-aead, sealing and opening, for every key, nonce, associated data and message of any length, on every configuration that compiles. A ciphertext opens to a message exactly if sealing that message gives that ciphertext and tag, also when the two sides run different builds. With one lane it is the AEGIS-128L of C50.", "quantifier": "all configurations that compile (RV32 and big-endian included), keys, nonces, associated data, messages and ciphertexts of every length, tags", "why_tests_cant": "all lengths (full and partial pieces of 64 or 128 bytes), all contents, all builds; lanes must never mix, which only a proof over all states shows", "anchors": ["src/aesdefault_x2.rs, src/aesdefault_x4.rs, src/aesni_x2.rs, src/aesni_x4.rs: enc, BitXor, BitAnd, From, store_to", "src/lib.rs: AesBlock, AesBlockX2, AesBlockX4"]}
