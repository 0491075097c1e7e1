# Formal model of RustCrypto/stream-ciphers in Rocq

The plan (sections 1, 2 and 4) was written before the proofs and is kept up to date
with the development.  Paths such as `chacha20/src/lib.rs` are relative to `/repo`.

## 1. What is modelled, and how

* **Words** are `N` with explicit reduction modulo 2^32 (2^64, ...).  Rust's
  `wrapping_add`, `rotate_left`, `^`, `from_le_bytes`, `to_le_bytes` are total
  functions in `Word.v`.  Every state type has a well-formedness predicate
  (length and `< 2^32`), proved invariant.
* **Panics** are values: `Res A := Ok a | Panic` (`Res.v`).  Non-wrapping Rust
  operators (`+ - *`) take a build-profile parameter `ck : bool`: with overflow
  checks they panic, without they wrap.  `assert!`/`assert_eq!`, the length test of
  `copy_from_slice`, and indexing with data-dependent indices (RC4, HC-256) are
  checked operations, so panic-freedom is a theorem.  Fixed-size arrays with literal
  indices (ChaCha, Salsa, Rabbit states), for which rustc itself rejects out-of-range
  constants, use total access with length lemmas.
* **SIMD.**  A 128-bit register is a list of four 32-bit lanes, a 256-/512-bit
  register a list of two/four 128-bit groups.  Each intrinsic used by the code is
  defined in `Simd.v` and proved equal to the vendors' pseudo-code, written as bit
  fields of one wide integer (C54).  Each backend is then transcribed intrinsic by
  intrinsic.  In these files an `unsafe` store is described by the bytes it
  contributes.  `Memory.v` models the same functions a second time over a
  byte-addressed memory with raw pointers, where leaving an allocation is an error
  value; C51 proves that the two agree and that nothing leaves its allocation.
* **Backends and closures.**  `cipher`'s closures drive a backend by a sequence of
  calls (one block / par blocks / tail).  The model quantifies over *every* such
  sequence, and separately models the sequence the `cipher` crate really issues.
* **Builds.**  The `#[cfg]` items of `chacha20` are a table from builds (features,
  target, `--cfg` options) to names (`Cfg.v`); the instruction-set extension of every
  intrinsic of every function is another (`Isa.v`).
* **Leakage.**  `Leakage.v`, `LeakageRes.v`, `LeakageSimd.v`, `LeakageRng.v` and `LeakageStream.v` repeat the code in a
  monad that records branch outcomes, array indices and load/store addresses; erasing
  the record is proved to give back the model (C50, C57).
* **External crates.**  `cipher::StreamCipherCoreWrapper`, `cipher::SeekNum`,
  `block_buffer::ReadBuffer` and `rand_core::block::BlockRng` live outside `/repo`
  (versions from `Cargo.lock`: cipher 0.5.2, block-buffer 0.12.1, rand_core 0.10.1);
  their sources are not available here.  They are modelled as an *environment
  contract* (`CipherWrapper.v`, `SeekNum.v`, `BlockRng.v`) from their documented
  behaviour.  Claims that depend on it say so in the manifest note.

### Layout

| file | content |
|---|---|
| `Word.v`, `Res.v`, `Hex.v` | words, bytes, panicking computations, hexadecimal literals |
| `SpecChaCha.v`, `SpecSalsa.v`, `SpecRabbit.v`, `SpecHC256.v`, `SpecRC4.v`, `SpecStream.v`, `SpecRng.v`, `SpecScrypt.v` | specifications, written from the RFCs/papers in plain arithmetic, sharing no helper with the models (except byte lists) |
| `ChaChaCore.v`, `ChaChaBackend.v`, `ChaChaSoft.v`, `Simd.v`, `ChaChaSse2.v`, `ChaChaAvx2.v`, `ChaChaAvx512.v`, `ChaChaNeon.v`, `ChaChaDispatch.v`, `XChaCha.v` | model of `chacha20` |
| `Memory.v`, `NeonEndian.v`, `Isa.v`, `Cfg.v` | its pointer code, byte order, instruction sets and conditional compilation |
| `Salsa.v` (with XSalsa), `Rabbit.v`, `Hc256.v`, `Rc4.v` | the other crates |
| `CipherWrapper.v`, `SeekNum.v`, `BlockRng.v` | environment contracts |
| `Ciphers.v` | all public cipher types with their key material, and their call histories |
| `BlockApi.v` | the block-level interface of the cores (`StreamCipherCore`, `StreamCipherSeekCore`, `try_apply_keystream_partial`) |
| `Repaired.v` | **not code of the repository**: the definitions above with the small changes that remove each defect found |
| `Sizes.v` | declared key, nonce and block sizes; construction from slices (`new_from_slice`, `new_from_slices`) |
| `ChaChaRng.v` | `ChaCha8Rng`, `ChaCha12Rng`, `ChaCha20Rng` |
| `RngFamily.v` | programs over many generators: `from_seed`, `from_rng`, save and restore, `==` |
| `Panics.v` | the unwrapping methods of the `cipher` traits (`apply_keystream`, `write_keystream`, `seek`, `current_pos`) |
| `Lifecycle.v` | `Drop` and `Debug` |
| `Packed.v` | the wrapper and the generators with the cursor in the first byte or word of the buffer |
| `Unwind.v` | the same with caught panics: what unwinding leaves in memory |
| `InOut.v` | ciphers on buffers in memory: in place, between buffers, filling |
| `Detect.v` | CPU feature detection shared by threads; ChaCha ciphers whose backend changes between calls |
| `CfgOthers.v`, `Ci.v` | conditional compilation of `salsa20`, `rabbit`, `hc-256`, `rc4`; the builds and test runs of continuous integration |
| `Work.v` | blocks asked of the cores in a history, and block computations of the backends for them |
| `Locals.v` | instrumented copies of the portable functions that return their local arrays as well |
| `Leakage.v`, `LeakageRes.v`, `LeakageSimd.v`, `LeakageRng.v`, `LeakageStream.v` | instrumented copies |
| `WordLemmas.v`, `SimdProofs.v`, `*Proofs.v`, `StreamLemmas.v`, `Hc256Seq.v`, `LeakageSim.v`, `LeakageLeaks.v`, `PropCommon.v` | lemmas |
| `Hc256Fast.v`, `Fast.v` | executable forms of the specifications, proved equal to them |
| `RepoVectors.v` | the vectors of the repository's tests, converted by a script |
| `Properties*.v` | the final theorems, each with a satisfiability `Example` and `Print Assumptions` |
| `Kats.v` | the repository's own test vectors evaluated in the model (model validation, not proofs) |

## 2. Property by property

| id | modelled | proof idea |
|---|---|---|
| C01 | `new_internal`, `quarter_round`, `run_rounds`, soft `gen_ks_block` | model = RFC 8439 spec by unfolding one quarter round, induction over rounds |
| C02 | same, legacy variant | same; 64-bit counter carry by arithmetic |
| C03-C06 | SSE2, AVX2, AVX-512, NEON, intrinsic by intrinsic | one quarter round kept opaque; lane-wise; shuffle = diagonalisation; induction over rounds; induction over the request sequence with the invariant "registers = rows of the state with counter c" |
| C07 | `process_with_backend` cfg/feature decision as a function of (cfg, features) | all branches equal by C01, C03-C06 |
| C08, C09 | `get/set_block_pos`, counter write-back | arithmetic mod 2^32/2^64 |
| C10 | `remaining_blocks` with `usize` width parameter | arithmetic |
| C11, C12 | `XChaChaCore::new`, `hchacha` | unfold to spec |
| C13-C19 | wrapper over an abstract core with law "n blocks = iterate one block" | refinement to a byte-position machine; induction over histories; instances for each cipher |
| C20 | same | **false** after seeking into the final block: refutation with a witness, plus the guarded positive statement |
| C21-C25, C27-C30 | `rng.rs` over `BlockRng` contract | refinement to abstract (seed, stream, word position mod 2^68) machine |
| C26 | `get_block_pos` with overflow checks | **false**; refutation plus exact panic condition |
| C31 | `from_seed`/`generate` at `V = Ietf` | **false**; refutation; positive for Legacy |
| C32-C35 | salsa20 crate | as ChaCha |
| C36 | `from_raw_state` | **false** with overflow checks for one counter value; exact condition |
| C37-C39 | rabbit crate | model = RFC 4503 arithmetic; odometer by arithmetic modulo 2^256-1 and gcd |
| C40, C41 | hc-256 crate | circular tables vs infinite recurrence: invariant relating table slots to the last 1024 elements |
| C42-C47 | rc4 crate | invariant: permutation; invertibility; induction |
| C48 | `Drop` implementations | the post-drop memory image is a constant; images determine values; **false** for ChaCha's cached block; compiler-level effects (copies, moves) not expressible |
| C49 | `Debug` implementations as functions to strings | independence of state; literal texts |
| C50 | instrumented version of the portable code | trace is a function of lengths; machine-code level timing not expressible |
| C51 | pointer code of the backends over byte memory | symbolic execution of each store; frame conditions; induction over the calls |
| C52 | intrinsics per function, their extension, `target_feature`, dispatch | **false** for SSE2 (an SSE4.1 intrinsic); enumeration of builds and CPUs |
| C53 | rounds and constructors | explicit inverse of a quarter round, induction; injectivity of the byte layout |
| C54 | `Simd.v` | digit-wise arithmetic on the register's integer value |
| C55 | HC-256 step and initialisation | explicit inverse of a step; the expansion is injective |
| C56 | `SeekNum` macro with typed integers | case analysis on types; **false** for `i32` after a seek into the last block |
| C57 | Rabbit, RC4, HC-256, SIMD pointer code, instrumented | two-run relational logic; the key is computed back from the index trace |
| C58 | `#[cfg]` table | tautology checker, proved sound, run on all conditions; **false** for one build |
| C59 | Salsa core through `from_raw_state` | top bits are invariant under the rounds; constants exclude it for cipher states |
| C60 | RC4 second byte | symbolic execution of two steps |
| C61 | Rabbit IV setup | counters differ by a fixed multiple; the odometer is injective |
| C62 | NEON loads and stores with the byte order as a parameter | registers do not depend on it, memory does; **false** for big-endian with a 64-bit counter and for the generators |
| C63 | wrapped ciphers | 64-bit counter = 32-bit counter with its upper half in the nonce; both position machines agree on ranges both grant |
| C64 | wrapped ciphers | XOR algebra on the keystream machine |
| C65 | RC4, HC-256, ChaCha and Salsa cores | injective update on a finite set (pigeonhole); counters modulo their width |
| C66 | declared key/IV/block sizes, construction from slices | case analysis; C13-C20 for what is constructed |
| C67 | Rabbit `inner_iv_init` on any core | refinement to RFC 4503's functions; a computed counterexample |
| C68 | `run_rounds`, `SalsaCore::from_raw_state`, `gen_ks_block`, constructors | quarter rounds of the rotated state are the same quarter rounds in another order; the first word of a cipher state fixes the rotation |
| C69 | wrapped ciphers, generators, `hchacha`, raw Salsa cores | executable forms of the specifications (`Fast.v`) proved equal to them, then evaluated; C13, C16, C21, C29 for what the tests sample |
| C70 | core types behind the block-level traits (`BlockApi.v`) | a block-counter machine independent of the model; one generic simulation, instantiated for each core |
| C71 | the changed lines, beside the originals (`Repaired.v`) | the refuted or partial properties, restated without their exceptions for the changed definitions |
| C72 | `Salsa.v` (rounds, `from_raw_state`) | all sums inside the quarter round are zero; the constants on the diagonal differ |
| C73 | `Rabbit.v` | counters step on depends on counters + carry only; g(u) = u^2 = g(2^16 u) for 16-bit u; a non-injective map of a finite set is not surjective |
| C74 | `LeakageRng.v`, `LeakageSimd.v`, `Leakage.v` | erasure to the model; a two-run simulation that keeps index and counter equal; for ==, the number of read events gives the length of the common prefix, from which an explicit attack recovers the seed |
| C75 | `XChaCha.v`, `Salsa.v`, `Ciphers.v`, `ChaChaRng.v` | HChaCha and HSalsa return words of the same permutation output to which the block function adds public words |
| C76 | `Rc4.v` | Fisher-Yates: choose each index so that the right value comes to its place; positions below i are then final |
| C77 | `LeakageStream.v` over `Leakage.v`, `LeakageRes.v`, `LeakageSimd.v` | relational simulation: equal traces and related outcomes compose through bind; cores enter by their own trace lemmas and the public block position |
| C78 | `Hc256.v` | explicit inverse of the table update and of the expansion; it is shown to undo the specification's steps, to which the code is tied by C40; unreachable states come from running forward from all-zero tables, which are not an expansion |
| C79 | `Rc4.v` | the specification's schedule depends on a prefix of the key only; three entries are followed to the end of the schedule and through the first output step |
| C80 | `RngFamily.v` over `ChaChaRng.v` | pointwise simulation between the family of generators and a family of positions, from the one-generator relation |
| C81 | `Ciphers.v` over the core, wrapper and dispatch files | block-by-block encryption equals the position machine's keystream from 64 times the counter; C17 gives the calls |
| C82 | `Panics.v`, `SeekNum.v`, `BlockApi.v`, `ChaChaRng.v`, `Sizes.v` | unwrapping is a filter on the answers of the try_ run; the position machines return None exactly on the listed calls |
| C83 | `Locals.v` over the core files | instrumented copies returning the final local arrays; the key recovered by C53's inverse rounds, the copied key, or the first words of the expansion |
| C84 | the C17 tape over every cipher type | pairs the spots of two histories, XORs the difference into the keystream; distinct spots without seeks by C19 |
| C85 | `Salsa.v` (`from_raw_state`, `gen_ks_block`) under a transcribed caller | C36 for one call; block positions by splitting the output buffer; Integerify by 2^k dividing 2^32; vectors of RFC 7914 sections 8 to 10 |
| C86 | `Packed.v` beside `CipherWrapper.v`, `BlockRng.v`, `ChaChaRng.v` | `pack` = core, cursor consed onto the tail of the block; every operation commutes with it and keeps the cursor in range; the fill loop keeps equal tails |
| C87 | `Unwind.v` over `Packed.v` | where no inner panic is possible the answers are those of C17; for Salsa the tracked wrapper of C56 plus: the memory left by the panicking seek is that of seeking to the block's start; generators by C26 |
| C88 | all wrapped ciphers and RC4 on buffers in one memory (`InOut.v`) | memory step = keystream of the plain step XORed bytewise; a machine that answers every history like the specification does so after a step, so C17 is reused as the invariant; input not yet read is never overwritten |
| C89 | `cpufeatures` bytes shared by threads; ChaCha cores with a backend per `process_with_backend` call (`Detect.v`) | invariant of the bytes over all interleavings; C17's refinement with a counter of backend calls beside the core |
| C90 | `#[cfg]` structure of the four other crates (`CfgOthers.v`); the steps of `.github/workflows` as builds (`Ci.v`) | the tautology checker of C58 for the crates; enumeration of the finitely many steps, with machines kept symbolic; C17 for the loops |
| C91 | cores with a record of the blocks asked of them, backends' block computations (`Work.v`) | induction over histories with the wrapper's cursor as left-over bytes; arithmetic of ceilings for the totals |
| C92 | `Cfg.v`, the dispatch of `Isa.v`, the cipher and generator models | from C13, C18 for the amount of data; symbolic evaluation of the crate's cfg conditions with the x86 atoms false; C24 to C30 for the generators |
| C93 | `Ciphers.v`, `BlockApi.v`, `Panics.v`, `XChaCha.v`; the protocols are written from their documents in `PropertiesProtocols.v` | from C17 (every history is the position machine), C70 (block interface), C82 (unwrapping), C53 (distinct inputs) |
| C94 | `RustSyntax.v` (lexer and parser), `RustSem.v` (evaluator), `RustText.v` (the copied text), `RustPrograms.v`, `RustLemmas.v`, `RustChaCha.v`, `RustChaCha2.v`, `RustSalsa.v`, `RustRabbit.v` | each function's text is run symbolically and equals the model's function; the theorems on keystreams then follow from C01, C02, C11, C32, C34, C37. Trusted: that the evaluator means what Rust means (simplifications listed at the head of `RustSem.v`), and that the strings are the files' lines (a script copied them; the line numbers stand beside each) |
| C95 | `RustMeth.v`, `RustRc4.v`, `RustRc4b.v`, `RustRc4c.v`, `RustHc256.v`, `RustHc256b.v`, `RustHc256c.v`, `RustHc256d.v`, `RustHc256e.v`, `PropertiesSource2.v` | as for C94: each function's text equals the model's function, and C42, C40 give the keystream. `InOutBuf` is a pair of an input and an output (contract of the crate `inout`); that its `into_iter` yields the pairs of elements in order is trusted with the evaluator |
| C96 | `RustRngText.v`, `RustRng.v` to `RustRng4.v`, `PropertiesSource3.v` | as for C94: each method's text equals the model's function, and C21, C26 give the answers. `BlockRng` is the contract of `BlockRng.v`, its `generate` the text of `gen_ks_blocks`. Not in the text: the struct (its one field is given by hand), `Debug`. An array passed on by name to a method is passed as the place (a `&mut` borrowed again) |
| C97 | `RustRng4.v`, `RustRng5.v`, `PropertiesSource4.v` | the text of `serialize_state`, `deserialize_state` and `eq` equals the model's functions (C29, C30). `debug_assert_eq!` is on exactly when overflow checks are; `try_into` from a slice to an array is not checked against the array's length (the parser drops it; `split_at` gives 32 and 8) |

## 3. Trusted base

* Coq 8.16.1's kernel (and `coqchk`).  No axioms are declared; `Print Assumptions`
  prints `Closed under the global context` for every final theorem (section 5).
  `coqchk` lists seven constants of the standard library's `Coq.ssr.ssrunder`
  (loaded through `Lia`'s and `ssreflect`'s support files); no theorem depends on them.
* Correctness of the transcription Rust -> Gallina (each definition cites lines).
* The vendors' pseudo-code of the CPU intrinsics as written in `PropertiesSimd.v`, and the
  extension each intrinsic belongs to (`Isa.v`).
* The environment contract for `cipher`, `block-buffer`, `rand_core`, `zeroize`.
* Specifications in `Spec*.v` (validated on published test vectors in `Kats.v`).
* The leakage model: branch outcomes, array indices and addresses leak; arithmetic does not.

## 4. Not modelled

Compilation and machine code; alignment, aliasing and initialisation rules of `unsafe`
code (all vector accesses in the code are the unaligned ones); what CPUID answers
(its outcome is a universally quantified parameter; the caching of it is C89); ordering of
relaxed atomics beyond interleaving; what the benchmarks measure (their loops are in C90); documentation.

## 5. Assumptions of the final theorems

The output of `Print Assumptions` is `Closed under the global context` for each of these.

* `PropertiesAead.v`: C81_rfc8439, C81_xchacha, C81_last_block, C81_open, C81_secretbox
* `PropertiesBlockApi.v`: C70_block, C70_from_core, C70_partial_apply, C70_one_many, C70_unguarded
* `PropertiesCfg.v`: C58_compiles_partial, C58_half_avx512_refuted, C58_exactly, C58_dispatch, C58_compiles_is
* `PropertiesChaCha.v`: C01_chacha_is_rfc8439, C01_chacha_block_at, C02_legacy_is_djb_chacha, C03_sse2_equals_soft, C04_avx2_equals_soft, C05_avx512_equals_soft, C06_neon_equals_soft, C03_soft_is_iterated_block, C07_backend_unobservable, C07_any_closure, C08_only_the_counter_moves, C09_block_seek, C09_seek_then_block, C10_remaining_blocks, C11_xchacha, C12_hchacha, C12_hchacha_from_block
* `PropertiesCi.v`: C90_members, C90_marker, C90_compiles, C90_reached, C90_covers, C90_targets, C90_unreached, C90_hides_sse41, C90_bench, C90_bench_turns, C90_benches
* `PropertiesCross.v`: C75_chacha, C75_legacy, C75_salsa, C75_generator
* `PropertiesDetect.v`: C89_detection, C89_one_cpu, C89_token, C89_backend_changes, C89_same
* `PropertiesDocs.v`: C92_data_limit_partial, C92_data_limit_refuted, C92_new_internal_panics, C92_new_internal_refuted, C92_ignored, C92_soft, C92_avx2_sse2, C92_avx512_refuted, C92_autodetect, C92_gates, C92_cycle, C92_offset, C92_initial, C92_erased, C92_streams, C92_leak
* `PropertiesEndian.v`: C62_little, C62_cipher_partial, C62_legacy_big, C62_rng_big, C62_legacy_refuted, C62_rng_refuted
* `PropertiesHc256.v`: C40_hc256, C40_expansion, C40_recurrence, C41_new, C41_no_panic, C41_run
* `PropertiesHc256Inj.v`: C55_step, C55_keys
* `PropertiesHc256Recover.v`: C78_recover, C78_test, C78_undo, C78_past, C78_unreachable
* `PropertiesInOut.v`: C88_memory, C88_pieces, C88_frame, C88_roundtrip, C88_overlap
* `PropertiesInterop.v`: C63_byte, C63_legacy_is_ietf, C63_xchacha, C63_xsalsa, C63_xchacha_is_legacy, C63_end, C64_malleable, C64_two_time_pad, C64_known_plaintext
* `PropertiesIsa.v`: C52_cipher_partial, C52_rng_partial, C52_exceptions, C52_refuted_rng, C52_refuted_cipher, C52_selects
* `PropertiesLeakage.v`: C50_faithful, C50_chacha_blocks, C50_chacha_new, C50_salsa_blocks, C50_salsa_checked, C50_salsa_new
* `PropertiesLocals.v`: C83_same, C83_total_partial, C83_content, C83_refuted, C83_differ, C83_subkey, C83_blocks, C83_rng
* `PropertiesMemory.v`: C51_sse2, C51_avx2, C51_avx512, C51_neon, C51_rng
* `PropertiesMerge.v`: C72_quarterround, C72_core, C72_unreachable, C73_twin, C73_lane, C73_no_past
* `PropertiesOneTimePad.v`: C84_real, C84_exact, C84_bijection, C84_no_seek
* `PropertiesPacked.v`: C86_cipher, C86_rng, C86_rng_restored, C86_limit
* `PropertiesPanics.v`: C82_unwrap_seekable, C82_unwrap, C82_try, C82_others, C82_apply, C82_blocks, C82_generators, C82_new
* `PropertiesPeriod.v`: C65_rc4_state, C65_rc4_keystream, C65_hc256_state, C65_chacha, C65_salsa
* `PropertiesPermutation.v`: C53_chacha_rounds, C53_salsa_rounds, C53_chacha_block, C53_salsa_block, C53_chacha_inputs, C53_salsa_inputs
* `PropertiesProtocols.v`: C93_quic_partial, C93_quic_refuted, C93_quic_core, C93_openssh, C93_secretstream, C93_rekey, C93_adiantum, C93_arcfour, C93_sessions
* `PropertiesRabbit.v`: C37_key_only, C37_key_iv, C38_odometer, C38_no_repeat, C38_no_repeat_key_only, C39_no_panic, C39_profiles_agree
* `PropertiesRabbitIv.v`: C61_ivs
* `PropertiesRc4.v`: C42_rc4, C43_permutation, C43_no_panic, C44_lengths, C44_new, C45_cyclic, C45_repetition, C46_bijection, C46_no_finney, C47_history, C47_chunking, C47_involution
* `PropertiesRc4Bias.v`: C60_second_byte
* `PropertiesRc4Fms.v`: C79_fms, C79_weak_iv
* `PropertiesRc4Keys.v`: C76_equivalent_key, C76_unique, C76_twin, C76_state_found
* `PropertiesRepaired.v`: C71_generator, C71_equal_futures, C71_round_trip, C71_core, C71_seek, C71_guard, C71_typed, C71_salsa, C71_wiped, C71_sse2_same, C71_instructions, C71_builds, C71_builds_same, C71_neon
* `PropertiesRepoTests.v`: C69_all
* `PropertiesRng.v`: C21_draws, C21_draws_reachable, C21_history, C22_word, C22_fill_is_keystream, C22_fill_equals_cipher, C23_refill, C23_refill_backend_independent, C23_history, C23_deserialize, C24_accounting, C24_set, C24_upper_bits_ignored, C24_cycle, C25_set, C25_block_of_next_word, C25_history, C26_get_block_pos_refuted, C26_exact, C26_get_block_pos_partial, C27_set_stream, C27_history_erased, C28_seed, C29_layout, C29_round_trip, C29_injective, C29_any_array, C30_equal_futures, C30_equality, C30_equal_futures_refuted, C31_from_seed_refuted, C31_generator_refuted, C31_core_partial
* `PropertiesRngExact.v`: C26_history, C26_answers, C26_reachable, C29_restored_offset, C30_same_offset
* `PropertiesRngFamily.v`: C80_family, C80_sites, C80_child
* `PropertiesRngTiming.v`: C74_faithful, C74_dispatch, C74_interface, C74_start, C74_eq_at_once, C74_eq_refuted
* `PropertiesSalsa.v`: C32_salsa_is_salsa20, C32_last_block, C33_block_seek, C33_counter, C34_hsalsa, C34_xsalsa, C35_hsalsa_from_core, C36_from_raw_state, C36_release, C36_refuted
* `PropertiesSalsaSym.v`: C59_collision, C59_unreachable, C59_chacha_differs
* `PropertiesScrypt.v`: C85_blockmix, C85_romix, C85_release, C85_panics
* `PropertiesSecrecy.v`: C48_defined, C48_wiped, C48_chacha_partial, C48_chacha_core, C48_chacha_refuted, C48_chacha_leak, C48_rng, C48_images, C49_debug, C49_texts, C49_decimal
* `PropertiesSeekNum.v`: C56_seek, C56_run, C56_untyped, C56_position_nonnegative_refuted, C56_position_nonnegative_partial, C56_types
* `PropertiesSimd.v`: C54_x86_128, C54_x86_set, C54_x86_set512, C54_x86_256, C54_x86_512, C54_neon
* `PropertiesSizes.v`: C66_accepted, C66_stream, C66_rejected, C66_iv_exact, C66_block_size, C66_rc4_block, C66_rc4_new, C67_used_core, C67_fresh_core, C67_used_differs
* `PropertiesSource.v`: C94_parsed, C94_chacha, C94_chacha20_rfc8439, C94_xchacha, C94_chacha_functions, C94_salsa, C94_xsalsa, C94_salsa_functions, C94_rabbit_key_only, C94_rabbit
* `PropertiesSource2.v`: C95_rc4, C95_rc4_functions, C95_hc256
* `PropertiesSource3.v`: C96_history, C96_checked, C96_family
* `PropertiesSource4.v`: C97_state, C97_equal, C97_copy
* `PropertiesStream.v`: C13_chunking, C13_split_unobservable, C14_decrypt, C15_write_is_apply_zeros, C15_b2b_is_apply, C15_b2b_length_mismatch, C15_same_state, C16_seek, C16_seek_answer, C17_history, C17_no_panic, C18_limit, C18_failure_is_noop, C19_no_reuse, C20_guard_after_seek_refuted, C20_salsa_checked_panics, C20_guard_after_seek_partial
* `PropertiesStreamTiming.v`: C77_faithful, C77_dispatch, C77_timing
* `PropertiesSymmetry.v`: C68_chacha, C68_salsa, C68_symmetric, C68_zero, C68_unreachable_salsa, C68_unreachable_chacha, C68_differs
* `PropertiesTiming.v`: C57_faithful, C57_rabbit, C57_simd, C57_rng, C57_rc4_leaks_key, C57_hc256_leaks_word, C57_hc256_leaks_key
* `PropertiesUnwind.v`: C87_caught, C87_order, C87_rng
* `PropertiesWork.v`: C91_log, C91_conserved, C91_bound, C91_chunks, C91_backend, C91_lanes, C91_lanes_of

## 6. What the proofs found in the code

1. Seeking into the final block is accepted; generating it wraps the counter and the
   keystream starts again from block 0 (C20; every seekable cipher).  With overflow checks
   Salsa panics there instead (C20, C36).
2. `Rng::get_block_pos` subtracts without wrapping and panics near the wrap of the 64-bit
   counter when overflow checks are on, unlike `get_word_pos` (C26, C29, C30).
3. `ChaChaCore<R, Ietf>::from_seed` always panics; as a generator that core's output
   depends on the backend when the 32-bit counter wraps in a refill (C31).
4. The feature `zeroize` of `chacha20` does not enable `cipher/zeroize`: the cached
   keystream block of a dropped cipher is not wiped (C48).
5. The SSE2 backend executes an SSE4.1 instruction (C52).
6. `--cfg chacha20_backend="avx512"` without `--cfg chacha20_avx512` does not compile on
   x86 (C58).
7. `try_current_pos::<i32>()` can return a negative position, and seeking to -1..-63
   panics instead of returning an error (C56).
8. RC4's and HC-256's table indices determine the whole key (C57).
9. The Salsa core collides on every state through `from_raw_state` (C59; inherent in the
   primitive).
10. Cosmetic: the `Debug` text of `ChaChaCore` prints the number of double rounds as `R`
    and has an unbalanced parenthesis (C49).
11. The NEON backend is also selected on big-endian aarch64, where its 64-bit stores exchange
    the counter words and its byte stores reverse the generators' words (C62).
12. `==` on the generators compares the secret seeds with the ordinary array comparison
    (`rng.rs:176-182`), whose time may depend on the first difference (C74).
13. The constructors' local arrays are never wiped, also with `zeroize`: the working state of
    `hchacha` (`xchacha.rs:114`) and `hsalsa` (`xsalsa.rs:98`), the subkeys (`xchacha.rs:59`,
    `xsalsa.rs:45`), Rabbit's `key` and `k` (`rabbit/src/lib.rs:60-61`), HC-256's `data`
    (`hc-256/src/lib.rs:74`) and the generators' seeds each determine the key (C83).
14. **Outdated documentation.** `README.md:20-22` warns of a 32-bit counter and a limit of 256 GiB
    compared with the original legacy variant; `ChaCha20Legacy` counts in 64 bits and encrypts up to
    2^70 - 64 bytes. `lib.rs:135-136` lists a 4-byte nonce as accepted, which always panics at
    `lib.rs:158`. `README.md:94-95` does not say that forcing AVX-512 needs `chacha20_avx512`, nor
    that the generators then run the AVX2 backend (C92).
15. **QUIC header protection.** RFC 9001 section 5.4.4 takes the block counter from the packet.
    `ChaCha20` keeps its last block back, so `seek(64 * counter)` and `apply_keystream` on five
    bytes panics for the counter 2^32 - 1 (the `try_` form errs): a peer can send a packet whose
    sample begins with four bytes 255. `ChaChaCore`'s block interface has no such gap (C93).

## 7. Testing the theorems

`seeded/LOG.jsonl` records edits of the model, made in scratch copies, in the manner of
realistic bugs: the edited definition, the edit, the claim it breaks, the theorems that no
longer prove, and the theorems that were tightened when an edit survived.  Survivors that
do not change the program's meaning are recorded as equivalent.
