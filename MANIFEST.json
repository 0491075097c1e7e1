{
 "claims": [
  {
   "property": "C01",
   "status": "proved",
   "theorems": [
    "C01_chacha_is_rfc8439",
    "C01_chacha_block_at"
   ],
   "note": "For every build configuration and CPU; any number of blocks from any start position."
  },
  {
   "property": "C02",
   "status": "proved",
   "theorems": [
    "C02_legacy_is_djb_chacha"
   ],
   "note": "For every build configuration and CPU."
  },
  {
   "property": "C03",
   "status": "proved",
   "theorems": [
    "C03_sse2_equals_soft",
    "C03_soft_is_iterated_block"
   ],
   "note": ""
  },
  {
   "property": "C04",
   "status": "proved",
   "theorems": [
    "C04_avx2_equals_soft",
    "C03_soft_is_iterated_block"
   ],
   "note": ""
  },
  {
   "property": "C05",
   "status": "proved",
   "theorems": [
    "C05_avx512_equals_soft",
    "C03_soft_is_iterated_block"
   ],
   "note": ""
  },
  {
   "property": "C06",
   "status": "proved",
   "theorems": [
    "C06_neon_equals_soft",
    "C03_soft_is_iterated_block"
   ],
   "note": ""
  },
  {
   "property": "C07",
   "status": "proved",
   "theorems": [
    "C07_backend_unobservable",
    "C07_any_closure"
   ],
   "note": "Configurations that do not compile are covered too (harmlessly)."
  },
  {
   "property": "C08",
   "status": "proved",
   "theorems": [
    "C08_only_the_counter_moves"
   ],
   "note": ""
  },
  {
   "property": "C09",
   "status": "proved",
   "theorems": [
    "C09_block_seek",
    "C09_seek_then_block"
   ],
   "note": ""
  },
  {
   "property": "C10",
   "status": "proved",
   "theorems": [
    "C10_remaining_blocks"
   ],
   "note": ""
  },
  {
   "property": "C11",
   "status": "proved",
   "theorems": [
    "C11_xchacha"
   ],
   "note": ""
  },
  {
   "property": "C12",
   "status": "proved",
   "theorems": [
    "C12_hchacha",
    "C12_hchacha_from_block"
   ],
   "note": ""
  },
  {
   "property": "C13",
   "status": "proved",
   "theorems": [
    "C13_chunking",
    "C13_split_unobservable"
   ],
   "note": "All nine cipher types at once ([cipher]), every build/CPU/usize; the wrapper and its cached block are the contract model CipherWrapper.v. Depends on the environment contract for the external cipher/block-buffer crates (CipherWrapper.v)."
  },
  {
   "property": "C14",
   "status": "proved",
   "theorems": [
    "C14_decrypt"
   ],
   "note": "Sender and receiver may even run different builds and CPUs. Depends on the environment contract for the external cipher/block-buffer crates (CipherWrapper.v)."
  },
  {
   "property": "C15",
   "status": "proved",
   "theorems": [
    "C15_write_is_apply_zeros",
    "C15_b2b_is_apply",
    "C15_b2b_length_mismatch",
    "C15_same_state"
   ],
   "note": "After every history and before every continuation; C15_same_state also gives equality of the internal states for the wrapper around any core. Depends on the environment contract for the external cipher/block-buffer crates (CipherWrapper.v)."
  },
  {
   "property": "C16",
   "status": "proved",
   "theorems": [
    "C16_seek",
    "C16_seek_answer"
   ],
   "note": "The integer type of current_pos must hold the end of the current block, because SeekNum multiplies before subtracting. Depends on the environment contract for the external cipher/block-buffer crates (CipherWrapper.v)."
  },
  {
   "property": "C17",
   "status": "proved",
   "theorems": [
    "C17_history",
    "C17_no_panic"
   ],
   "note": "Answers of every finite history equal those of the position machine; panics only for Salsa with overflow checks after seeking into its last block (C36). Depends on the environment contract for the external cipher/block-buffer crates (CipherWrapper.v)."
  },
  {
   "property": "C18",
   "status": "proved",
   "theorems": [
    "C18_limit",
    "C18_failure_is_noop"
   ],
   "note": "Exact bound for positions at or below the usable limit; beyond it (reachable only by seeking into the last block) see C20. The buffer is untouched on failure because the model returns no bytes. Depends on the environment contract for the external cipher/block-buffer crates (CipherWrapper.v)."
  },
  {
   "property": "C19",
   "status": "proved",
   "theorems": [
    "C19_no_reuse"
   ],
   "note": "Positions used are 0,1,2,... and (counter, offset) pairs never repeat. Depends on the environment contract for the external cipher/block-buffer crates (CipherWrapper.v)."
  },
  {
   "property": "C20",
   "status": "partial",
   "theorems": [
    "C20_guard_after_seek_refuted",
    "C20_salsa_checked_panics",
    "C20_guard_after_seek_partial"
   ],
   "note": "FINDING: the property is false. try_seek accepts positions inside the last block; generating it wraps the counter to 0, remaining_blocks starts again and block 0 of the keystream is reused. Proved for every seekable cipher (Salsa: without overflow checks; with them the seek panics). The partial theorem gives the guard for histories whose seeks stay at or below 64*(2^w-1). Depends on the environment contract for the external cipher/block-buffer crates (CipherWrapper.v)."
  },
  {
   "property": "C21",
   "status": "proved",
   "theorems": [
    "C21_draws",
    "C21_draws_reachable",
    "C21_history"
   ],
   "note": "From any reachable generator (seeded, deserialised, used). C21_history covers all the other calls too. Depends on the environment contract for rand_core's BlockRng (BlockRng.v)."
  },
  {
   "property": "C22",
   "status": "proved",
   "theorems": [
    "C22_word",
    "C22_fill_is_keystream",
    "C22_fill_equals_cipher"
   ],
   "note": "Also equality with the bytes of the model of the Legacy cipher type. Depends on the environment contract for rand_core's BlockRng (BlockRng.v)."
  },
  {
   "property": "C23",
   "status": "proved",
   "theorems": [
    "C23_refill",
    "C23_refill_backend_independent",
    "C23_history",
    "C23_deserialize"
   ],
   "note": "The refill is given in closed form; whole call histories give the same answers, panics and internal state in every build on every CPU. Depends on the environment contract for rand_core's BlockRng (BlockRng.v)."
  },
  {
   "property": "C24",
   "status": "proved",
   "theorems": [
    "C24_accounting",
    "C24_set",
    "C24_upper_bits_ignored",
    "C24_cycle"
   ],
   "note": "Depends on the environment contract for rand_core's BlockRng (BlockRng.v)."
  },
  {
   "property": "C25",
   "status": "proved",
   "theorems": [
    "C25_set",
    "C25_block_of_next_word",
    "C25_history"
   ],
   "note": "C25_set holds with overflow checks as well. Depends on the environment contract for rand_core's BlockRng (BlockRng.v)."
  },
  {
   "property": "C26",
   "status": "partial",
   "theorems": [
    "C26_get_block_pos_refuted",
    "C26_exact",
    "C26_get_block_pos_partial",
    "C26_history",
    "C26_answers",
    "C26_reachable"
   ],
   "note": "FINDING: false. `counter - BUF_BLOCKS` (rng.rs:255) is not wrapping, unlike get_word_pos: with overflow checks get_block_pos panics while the buffer was filled across the wrap of the 64-bit counter, up to 47 words beyond it. C26_exact is the exact condition on states; C26_history computes, for every history, whether and what it answers with overflow checks. Depends on the environment contract for rand_core's BlockRng (BlockRng.v)."
  },
  {
   "property": "C27",
   "status": "proved",
   "theorems": [
    "C27_set_stream",
    "C27_history_erased"
   ],
   "note": "Depends on the environment contract for rand_core's BlockRng (BlockRng.v)."
  },
  {
   "property": "C28",
   "status": "proved",
   "theorems": [
    "C28_seed"
   ],
   "note": "Depends on the environment contract for rand_core's BlockRng (BlockRng.v)."
  },
  {
   "property": "C29",
   "status": "partial",
   "theorems": [
    "C29_layout",
    "C29_round_trip",
    "C29_injective",
    "C29_any_array",
    "C29_restored_offset"
   ],
   "note": "Complete for builds without overflow checks, and with them for all calls but get_block_pos, which can panic on one of the two (FINDING, see C26 and C30_equal_futures_refuted). Depends on the environment contract for rand_core's BlockRng (BlockRng.v)."
  },
  {
   "property": "C30",
   "status": "partial",
   "theorems": [
    "C30_equal_futures",
    "C30_equality",
    "C30_equal_futures_refuted",
    "C30_same_offset"
   ],
   "note": "Complete for builds without overflow checks, and with them for all calls but get_block_pos. FINDING: with overflow checks, of two equal generators one can answer get_block_pos and the other panic (same cause as C26). Depends on the environment contract for rand_core's BlockRng (BlockRng.v)."
  },
  {
   "property": "C31",
   "status": "partial",
   "theorems": [
    "C31_from_seed_refuted",
    "C31_generator_refuted",
    "C31_core_partial"
   ],
   "note": "FINDING: false for V = Ietf. from_seed always panics (8-byte nonce against lib.rs:158), and the refill of an IETF core depends on the backend when the 32-bit counter wraps in it. Proved for V = Legacy, and for Ietf away from the wrap."
  },
  {
   "property": "C32",
   "status": "proved",
   "theorems": [
    "C32_salsa_is_salsa20",
    "C32_last_block"
   ],
   "note": "Both build profiles; with overflow checks the block 2^64-1 panics (see C33, C36)."
  },
  {
   "property": "C33",
   "status": "proved",
   "theorems": [
    "C33_block_seek",
    "C33_counter"
   ],
   "note": ""
  },
  {
   "property": "C34",
   "status": "proved",
   "theorems": [
    "C34_hsalsa",
    "C34_xsalsa"
   ],
   "note": ""
  },
  {
   "property": "C35",
   "status": "proved",
   "theorems": [
    "C35_hsalsa_from_core"
   ],
   "note": ""
  },
  {
   "property": "C36",
   "status": "partial",
   "theorems": [
    "C36_from_raw_state",
    "C36_release",
    "C36_refuted"
   ],
   "note": "FINDING: false as stated. With overflow checks the state whose words 8 and 9 are all ones panics (get_block_pos() + 1, salsa20/src/backends/soft.rs:25). C36_from_raw_state is the exact behaviour, C36_release the property for builds without overflow checks."
  },
  {
   "property": "C37",
   "status": "proved",
   "theorems": [
    "C37_key_only",
    "C37_key_iv"
   ],
   "note": ""
  },
  {
   "property": "C38",
   "status": "proved",
   "theorems": [
    "C38_odometer",
    "C38_no_repeat",
    "C38_no_repeat_key_only"
   ],
   "note": "d ranges over 1..2^256-2; already counters and carry differ."
  },
  {
   "property": "C39",
   "status": "proved",
   "theorems": [
    "C39_no_panic",
    "C39_profiles_agree"
   ],
   "note": ""
  },
  {
   "property": "C40",
   "status": "proved",
   "theorems": [
    "C40_hc256",
    "C40_expansion",
    "C40_recurrence"
   ],
   "note": "Table form of the paper with unbounded step number, and the same keystream as two unbounded recurrences without tables; every usize width, both build profiles."
  },
  {
   "property": "C41",
   "status": "proved",
   "theorems": [
    "C41_new",
    "C41_no_panic",
    "C41_run"
   ],
   "note": "All table accesses and plain additions are checked in the model; also proves the result independent of build profile and pointer width."
  },
  {
   "property": "C42",
   "status": "proved",
   "theorems": [
    "C42_rc4"
   ],
   "note": "Keystream bytes of the model equal the textbook RC4 (permutation as a function) for every key of 1..256 bytes and every number of bytes."
  },
  {
   "property": "C43",
   "status": "proved",
   "theorems": [
    "C43_permutation",
    "C43_no_panic"
   ],
   "note": "Reachability is over arbitrary call histories; array accesses and swaps are bounds-checked in the model."
  },
  {
   "property": "C44",
   "status": "proved",
   "theorems": [
    "C44_lengths",
    "C44_new"
   ],
   "note": "Exact characterisation for byte strings of every length."
  },
  {
   "property": "C45",
   "status": "proved",
   "theorems": [
    "C45_cyclic",
    "C45_repetition"
   ],
   "note": "Equality of the constructed states."
  },
  {
   "property": "C46",
   "status": "proved",
   "theorems": [
    "C46_bijection",
    "C46_no_finney"
   ],
   "note": "prga is total, injective and surjective on valid states; Finney states exist among the valid ones but are unreachable from any key."
  },
  {
   "property": "C47",
   "status": "proved",
   "theorems": [
    "C47_history",
    "C47_chunking",
    "C47_involution"
   ],
   "note": "Whole call histories answered by a position in the RC4 keystream; chunking; involution. Depends on the environment contract for the external cipher/block-buffer crates (CipherWrapper.v)."
  },
  {
   "property": "C48",
   "status": "partial",
   "theorems": [
    "C48_defined",
    "C48_wiped",
    "C48_rng",
    "C48_chacha_partial",
    "C48_chacha_core",
    "C48_chacha_refuted",
    "C48_chacha_leak",
    "C48_images"
   ],
   "note": "FINDING: chacha20's feature zeroize does not enable cipher/zeroize (chacha20/Cargo.toml:26-27), so the wrapper's cached keystream block of a dropped ChaCha/XChaCha cipher is not wiped unless another crate enables it: C48_chacha_refuted (witness), C48_chacha_leak (general). Proved in full for Salsa, XSalsa, Rabbit, HC-256, RC4 (C48_wiped: memory is all zeros after any non-panicking history) and for the ChaCha generators (C48_rng); for ChaCha ciphers when cipher/zeroize is on (C48_chacha_partial), and the key-bearing core always (C48_chacha_core). Memory image: the fields, ReadBuffer's cursor in its first byte, BlockRng's index in its first word. Missing: the full statement for ChaCha ciphers is false."
  },
  {
   "property": "C49",
   "status": "proved",
   "theorems": [
    "C49_debug",
    "C49_texts",
    "C49_decimal"
   ],
   "note": "The Debug implementations are modelled as the texts they write; the statement is that the text does not depend on the state. derive(Debug) of XChaChaCore is modelled in both {:?} and {:#?} form."
  },
  {
   "property": "C50",
   "status": "proved",
   "theorems": [
    "C50_faithful",
    "C50_chacha_blocks",
    "C50_chacha_new",
    "C50_salsa_blocks",
    "C50_salsa_checked",
    "C50_salsa_new"
   ],
   "note": "Instrumented copies of the portable functions emit a trace of branch outcomes and array indices; C50_faithful ties them to the model, the others show equal traces for any two inputs of equal lengths. With overflow checks the Salsa counter addition contains an overflow test; C50_salsa_checked covers it for non-panicking calls. Source level only: nothing is said about the compiled code."
  },
  {
   "property": "C51",
   "status": "proved",
   "theorems": [
    "C51_sse2",
    "C51_avx2",
    "C51_avx512",
    "C51_neon",
    "C51_rng"
   ],
   "note": "Loads and stores go through raw pointers into an explicit byte memory in which leaving an allocation is an error value. Alignment, aliasing rules and uninitialised memory are not represented; all vector accesses in the code are the unaligned ones. C51_model_is_strict shows out-of-bounds accesses are detected by the model."
  },
  {
   "property": "C52",
   "status": "partial",
   "theorems": [
    "C52_cipher_partial",
    "C52_rng_partial",
    "C52_exceptions",
    "C52_refuted_rng",
    "C52_refuted_cipher",
    "C52_selects"
   ],
   "note": "FINDING: the SSE2 backend executes _mm_extract_epi32, an SSE4.1 instruction, under target_feature(enable = \"sse2\") and selected by an sse2-only token: always in rng_inner (sse2.rs:133) and, when the counter has 64 bits (ChaCha20Legacy), in inner (sse2.rs:54). On an x86 CPU with SSE2 but without SSE4.1 (AMD K8/K10, early Core 2) this is undefined behaviour: C52_refuted_rng, C52_refuted_cipher; C52_exceptions shows it happens on every such CPU. Everything else is proved (C52_cipher_partial, C52_rng_partial). The lists of intrinsics per function are transcribed by hand; the extension of each intrinsic is the one core::arch declares. Missing: the full statement is false."
  },
  {
   "property": "C53",
   "status": "proved",
   "theorems": [
    "C53_chacha_rounds",
    "C53_salsa_rounds",
    "C53_chacha_block",
    "C53_salsa_block",
    "C53_chacha_inputs",
    "C53_salsa_inputs"
   ],
   "note": "The inverse is given explicitly. Nothing is claimed about collisions of truncated outputs (HChaCha, HSalsa) or of keystream blocks themselves."
  },
  {
   "property": "C54",
   "status": "proved",
   "theorems": [
    "C54_x86_128",
    "C54_x86_set",
    "C54_x86_set512",
    "C54_x86_256",
    "C54_x86_512",
    "C54_neon"
   ],
   "note": "The reference is the vendors' pseudo-code written as bit fields of the register's integer value (quotient and remainder by powers of two), independent of the lane lists that Simd.v works on. The pseudo-code itself is transcribed from the public instruction references and is trusted."
  },
  {
   "property": "C55",
   "status": "proved",
   "theorems": [
    "C55_step",
    "C55_keys"
   ],
   "note": "Injectivity, with the initialisation (2660-word expansion and 4096 blank steps) included."
  },
  {
   "property": "C56",
   "status": "partial",
   "theorems": [
    "C56_seek",
    "C56_run",
    "C56_types",
    "C56_untyped",
    "C56_position_nonnegative_refuted",
    "C56_position_nonnegative_partial"
   ],
   "note": "FINDING: after seeking into the middle of the final block (accepted, see C20) the block counter is 0 with unread bytes in the buffer, and try_current_pos::<i32>() then returns a negative number (k - 64) instead of an error; the unsigned types return the error. Seeking to -1..-63 panics on the assertion byte_pos < block size instead of returning an error. SeekNum is in the cipher crate (environment contract); everything except non-negativity of reported positions is proved without restriction, and that holds when no seek passes the start of the final block."
  },
  {
   "property": "C57",
   "status": "proved",
   "theorems": [
    "C57_faithful",
    "C57_rabbit",
    "C57_simd",
    "C57_rng",
    "C57_rc4_leaks_key",
    "C57_hc256_leaks_word",
    "C57_hc256_leaks_key"
   ],
   "note": "FINDING: RC4 and HC-256 index tables with secrets; the theorems say how much that gives away. Leakage model: branch outcomes, array indices and vector load/store addresses; registers and arithmetic leak nothing."
  },
  {
   "property": "C58",
   "status": "partial",
   "theorems": [
    "C58_compiles_partial",
    "C58_half_avx512_refuted",
    "C58_exactly",
    "C58_dispatch",
    "C58_compiles_is"
   ],
   "note": "FINDING: chacha20_backend=\"avx512\" without --cfg chacha20_avx512 on x86 does not type-check (lib.rs:110 against lib.rs:169). The claim holds for every other build; C58_exactly says exactly which builds are accepted. The table of names is extracted by hand from the source."
  },
  {
   "property": "C59",
   "status": "proved",
   "theorems": [
    "C59_collision",
    "C59_unreachable",
    "C59_chacha_differs"
   ],
   "note": "Toggling the top bit of every word is an exact invariant of Salsa's rounds; salsa_new's constants exclude it for cipher states."
  },
  {
   "property": "C60",
   "status": "proved",
   "theorems": [
    "C60_second_byte"
   ],
   "note": "Also stated for messages: the second byte passes through unchanged."
  },
  {
   "property": "C61",
   "status": "proved",
   "theorems": [
    "C61_ivs"
   ],
   "note": "The excepted keys (equal halves of the key-setup counters) are part of the statement: there the counters of two complementary IVs really can meet."
  },
  {
   "property": "C62",
   "status": "partial",
   "theorems": [
    "C62_little",
    "C62_cipher_partial",
    "C62_legacy_big",
    "C62_rng_big",
    "C62_legacy_refuted",
    "C62_rng_refuted"
   ],
   "note": "FINDING: on big-endian aarch64 the backend is selected as well (no endianness condition), but stores the counter row with vst1q_u64, which exchanges state words 12/13 and 14/15 there, and fills the generators' u32 buffer bytewise in little-endian order. ChaCha20Legacy goes wrong from its second call on, ChaCha*Rng from its first word. ChaCha and XChaCha (32-bit counter) are right on both byte orders (C62_cipher_partial), and everything is on little-endian (C62_little). Missing: the full statement is false. Assumes the ACLE meaning of the intrinsics on big-endian (LD1/ST1 transfer elements in native byte order, reinterpretations keep the register)."
  },
  {
   "property": "C63",
   "status": "proved",
   "theorems": [
    "C63_byte",
    "C63_legacy_is_ietf",
    "C63_xchacha",
    "C63_xsalsa",
    "C63_xchacha_is_legacy",
    "C63_end"
   ],
   "note": "The nonce extension is the little-endian upper half of the 64-bit block counter."
  },
  {
   "property": "C64",
   "status": "proved",
   "theorems": [
    "C64_malleable",
    "C64_two_time_pad",
    "C64_known_plaintext"
   ],
   "note": "[track] reads the position off the calls and their answers."
  },
  {
   "property": "C65",
   "status": "proved",
   "theorems": [
    "C65_rc4_state",
    "C65_rc4_keystream",
    "C65_hc256_state",
    "C65_chacha",
    "C65_salsa"
   ],
   "note": "Rabbit is not claimed: its next-state function is not injective; C38 bounds its period from below."
  },
  {
   "property": "C66",
   "status": "proved",
   "theorems": [
    "C66_accepted",
    "C66_stream",
    "C66_rejected",
    "C66_iv_exact",
    "C66_block_size",
    "C66_rc4_block",
    "C66_rc4_new"
   ],
   "note": "new_from_slices is the provided method of the cipher crate (environment contract); the sizes are the repository's."
  },
  {
   "property": "C67",
   "status": "proved",
   "theorems": [
    "C67_used_core",
    "C67_fresh_core",
    "C67_used_differs"
   ],
   "note": "The type system does not require a fresh core; the RFC's construction does."
  },
  {
   "property": "C68",
   "status": "proved",
   "theorems": [
    "C68_chacha",
    "C68_salsa",
    "C68_symmetric",
    "C68_zero",
    "C68_unreachable_salsa",
    "C68_unreachable_chacha",
    "C68_differs"
   ],
   "note": "Column rotation (ChaCha) and diagonal shift (Salsa) of the state carry over to the block, for all states and round counts; states of the ciphers are never so related."
  },
  {
   "property": "C69",
   "status": "proved",
   "theorems": [
    "C69_chacha20",
    "C69_xchacha20",
    "C69_hchacha20",
    "C69_blobs",
    "C69_chacha20_offsets",
    "C69_salsa20",
    "C69_salsa20_offsets",
    "C69_salsa20_big_offset",
    "C69_salsa_raw",
    "C69_ecrypt",
    "C69_rabbit",
    "C69_hc256",
    "C69_rc4",
    "C69_rng_bytes",
    "C69_rng_true_values",
    "C69_rng_true_values_c",
    "C69_rng_multiple_blocks",
    "C69_rng_construction",
    "C69_rng_nonce",
    "C69_rng_counter",
    "C69_rng_wrapping_add",
    "C69_rng_clone_streams",
    "C69_rng_word_pos",
    "C69_rng_trait_objects",
    "C69_rng_counter_width",
    "C69_rng_serde",
    "C69_rng_serialized",
    "C69_seek",
    "C69_readme_seek",
    "C69_readme"
   ],
   "note": "The vectors were converted by a script (RepoVectors.v), the .blb files decoded from the blobby format. The bodies of the macros stream_cipher_test! and stream_cipher_seek_test! are in the cipher crate."
  },
  {
   "property": "C70",
   "status": "proved",
   "theorems": [
    "C70_block",
    "C70_from_core",
    "C70_partial_apply",
    "C70_one_many",
    "C70_unguarded"
   ],
   "note": "The trait's provided methods are environment contract (cipher 0.5.2); the cores behind them are the repository's. FINDING (documented behaviour of the low-level traits): block-level calls run past the last counter value and repeat the keystream."
  },
  {
   "property": "C71",
   "status": "proved",
   "theorems": [
    "C71_generator",
    "C71_equal_futures",
    "C71_round_trip",
    "C71_core",
    "C71_seek",
    "C71_guard",
    "C71_typed",
    "C71_salsa",
    "C71_wiped",
    "C71_sse2_same",
    "C71_instructions",
    "C71_builds",
    "C71_builds_same",
    "C71_neon"
   ],
   "note": "About the code with the small changes written out in Repaired.v, each beside the line it changes; it shows that the exceptions recorded under C20, C26, C29, C30, C31, C36, C48, C52, C56, C58 and C62 have no other cause. (c) changes the cipher crate, which is environment here."
  },
  {
   "property": "C72",
   "status": "proved",
   "theorems": [
    "C72_quarterround",
    "C72_core",
    "C72_unreachable"
   ],
   "note": "Known property of the Salsa core, of interest only to users of from_raw_state."
  },
  {
   "property": "C73",
   "status": "proved",
   "theorems": [
    "C73_twin",
    "C73_lane",
    "C73_no_past"
   ],
   "note": "Property of the cipher design (RFC 4503), carried by the code; contrast C65 (all other generators return to their initial state) and C38 (no repetition within 2^256-1 blocks)."
  },
  {
   "property": "C74",
   "status": "partial",
   "theorems": [
    "C74_faithful",
    "C74_dispatch",
    "C74_interface",
    "C74_start",
    "C74_eq_at_once",
    "C74_eq_refuted"
   ],
   "note": "FINDING: the generators' PartialEq compares seeds with ordinary ==; C74_eq_refuted is the attack for a comparison that stops at the first difference (a legal implementation, Rust does not promise otherwise). The rest of the interface is proved not to leak seeds."
  },
  {
   "property": "C75",
   "status": "proved",
   "theorems": [
    "C75_chacha",
    "C75_legacy",
    "C75_salsa",
    "C75_generator"
   ],
   "note": "Known caveat of the extended-nonce construction, of interest to callers who use one key with both types; follows from C12, C22, C35 and C63."
  },
  {
   "property": "C76",
   "status": "proved",
   "theorems": [
    "C76_equivalent_key",
    "C76_unique",
    "C76_twin",
    "C76_state_found"
   ],
   "note": "Property of the RC4 design carried by the code; complements C45 (collisions between keys of different length) and C46 (invertibility)."
  },
  {
   "property": "C77",
   "status": "proved",
   "theorems": [
    "C77_faithful",
    "C77_dispatch",
    "C77_timing"
   ],
   "note": "In the leakage model of C50/C57; the wrapper is the environment contract of the cipher crate, the cores are the repository's. HC-256 and RC4 are excluded, since their cores leak the key (C57)."
  },
  {
   "property": "C78",
   "status": "proved",
   "theorems": [
    "C78_recover",
    "C78_test",
    "C78_undo",
    "C78_past",
    "C78_unreachable"
   ],
   "note": "Property of the HC-256 design carried by the code: what a leaked state is worth, and why wiping it on drop (C48) matters. Constructive form of C55."
  },
  {
   "property": "C79",
   "status": "proved",
   "theorems": [
    "C79_fms",
    "C79_weak_iv"
   ],
   "note": "Weakness of the RC4 design carried by the code (rc4/README.md warns against use); the condition on the rest of the schedule cannot be seen by the attacker and holds for about one prefix in twenty, so the attack votes over many prefixes."
  },
  {
   "property": "C80",
   "status": "proved",
   "theorems": [
    "C80_family",
    "C80_sites",
    "C80_child"
   ],
   "note": "from_rng is a provided method of rand_core and enters as its contract (fill a seed, from_seed); everything else is the repository's code. Lifts C21 to C30 from one generator to programs."
  },
  {
   "property": "C81",
   "status": "proved",
   "theorems": [
    "C81_rfc8439",
    "C81_xchacha",
    "C81_last_block",
    "C81_open",
    "C81_secretbox"
   ],
   "note": "The AEAD crates themselves are not in the repository; their protocols enter as specifications written from RFC 8439 and NaCl. The last block RFC 8439 allows cannot be used (consequence of C20's guard)."
  },
  {
   "property": "C82",
   "status": "proved",
   "theorems": [
    "C82_unwrap_seekable",
    "C82_unwrap",
    "C82_try",
    "C82_others",
    "C82_apply",
    "C82_blocks",
    "C82_generators",
    "C82_new"
   ],
   "note": "Collects C17, C26, C31, C36, C39, C41, C43, C56, C66 and C70 into one exact list. The unwrapping methods are provided methods of the cipher crate (environment contract, Panics.v). Allocation failure, stack exhaustion and panics inside other crates are outside the model."
  },
  {
   "property": "C83",
   "status": "partial",
   "theorems": [
    "C83_same",
    "C83_total_partial",
    "C83_content",
    "C83_refuted",
    "C83_differ",
    "C83_subkey",
    "C83_blocks",
    "C83_rng"
   ],
   "note": "FINDING: no function wipes its local arrays, so with every zeroize feature on the key of an XChaCha, XSalsa, Rabbit or HC-256 cipher (C83_refuted, C83_differ: for every key) and the generators' seeds (C83_rng) remain in dead locals of the constructors. Proved in full for ChaCha, Salsa and RC4 (C83_total_partial) and for the block functions (C83_blocks). Source-level model: named arrays, by-value arrays and returned temporaries (Locals.v, tied to the model by C83_same); compiler copies, registers and later overwriting are outside it. Missing: the full statement is false."
  },
  {
   "property": "C84",
   "status": "proved",
   "theorems": [
    "C84_real",
    "C84_exact",
    "C84_bijection",
    "C84_no_seek"
   ],
   "note": "For every cipher type, stated over the tape specification that C17 proves equal to the code (C84_real). That the keystreams themselves look random is a cryptographic assumption and not claimed."
  },
  {
   "property": "C85",
   "status": "proved",
   "theorems": [
    "C85_blockmix",
    "C85_romix",
    "C85_release",
    "C85_panics"
   ],
   "note": "The caller (scrypt_block_mix, scrypt_ro_mix of the scrypt crate that from_raw_state's documentation names) is not in this repository; it is transcribed in PropertiesScrypt.v. The panic part is finding C36 seen from that caller. PBKDF2 and the parallel lanes of scrypt are outside the model."
  },
  {
   "property": "C86",
   "status": "proved",
   "theorems": [
    "C86_cipher",
    "C86_rng",
    "C86_rng_restored",
    "C86_limit"
   ],
   "note": "The packed buffers belong to block-buffer and rand_core, outside the repository; Packed.v transcribes them from their documented behaviour. The undefined case is the unreachable_unchecked of ReadBuffer::get_pos. C86_limit: the bound on block sizes is needed."
  },
  {
   "property": "C87",
   "status": "proved",
   "theorems": [
    "C87_caught",
    "C87_rng",
    "C87_order"
   ],
   "note": "Unwinding is modelled for the packed wrapper of Packed.v (order of writes of the cipher and block-buffer crates from their documented behaviour). C87_order shows what the order of two lines in salsa20 prevents. Typed seeks of negative values (C56) panic before anything is written and are not repeated here."
  },
  {
   "property": "C88",
   "status": "proved",
   "theorems": [
    "C88_memory",
    "C88_pieces",
    "C88_frame",
    "C88_roundtrip",
    "C88_overlap"
   ],
   "note": "The closures and InOutBuf belong to the cipher and inout crates, outside the repository, and are modelled from their documented behaviour; the cutting into pieces is a parameter. That Rust only lets equal or disjoint buffers through is the hypothesis buffers_ok; C88_overlap shows that it is needed."
  },
  {
   "property": "C89",
   "status": "proved",
   "theorems": [
    "C89_detection",
    "C89_one_cpu",
    "C89_token",
    "C89_backend_changes",
    "C89_same"
   ],
   "note": "cpufeatures is outside the repository and modelled from its documented behaviour, with interleaving semantics for its atomic bytes. Generators on changing machines are part of C80 (each instruction there has its own site). Whether the CPU has the instructions of the backend chosen is C52."
  },
  {
   "property": "C90",
   "status": "proved",
   "theorems": [
    "C90_members",
    "C90_marker",
    "C90_compiles",
    "C90_reached",
    "C90_covers",
    "C90_targets",
    "C90_benches",
    "C90_unreached",
    "C90_hides_sse41",
    "C90_bench",
    "C90_bench_turns"
   ],
   "note": "Both readings of cargo hack's powerset (with or without the implicit feature zeroize) are covered. C90_unreached and C90_hides_sse41 say why the findings of C20, C26, C31, C36, C52, C58 and C62 do not show in CI. Target defaults (rustc) and the runners' architecture are taken from their documentation."
  },
  {
   "property": "C91",
   "status": "proved",
   "theorems": [
    "C91_log",
    "C91_conserved",
    "C91_bound",
    "C91_chunks",
    "C91_backend",
    "C91_lanes",
    "C91_lanes_of"
   ],
   "note": "Calls of the core for no blocks are not counted. The blocks a backend computes for one request are stated in Work.v line by line; C91_backend ties the choice of backend and its width to process_with_backend. Remark: on NEON a call that leaves seven blocks over computes 56 for them."
  },
  {
   "property": "C92",
   "status": "partial",
   "theorems": [
    "C92_data_limit_partial",
    "C92_data_limit_refuted",
    "C92_new_internal_panics",
    "C92_new_internal_refuted",
    "C92_ignored",
    "C92_soft",
    "C92_avx2_sse2",
    "C92_avx512_refuted",
    "C92_autodetect",
    "C92_gates",
    "C92_cycle",
    "C92_offset",
    "C92_initial",
    "C92_erased",
    "C92_streams",
    "C92_leak"
   ],
   "note": "FINDING: three sentences are false of the code. The README's warning of a 32-bit counter and 256 GiB holds for the types with 96-bit and 192-bit nonces but not for ChaCha20Legacy, which it is about (C92_data_limit_refuted: 2^32 times as much). new_internal panics for every 4-byte nonce, and for 8 or 12 according to the variant (C92_new_internal_refuted). Forcing avx512 needs chacha20_avx512 as well, and leaves the generators on AVX2 (C92_avx512_refuted). Everything else listed is proved. 'Unique streams of output' is proved of states; that two different streams' outputs differ is a cryptographic claim."
  },
  {
   "property": "C93",
   "status": "partial",
   "theorems": [
    "C93_quic_partial",
    "C93_quic_refuted",
    "C93_quic_core",
    "C93_openssh",
    "C93_secretstream",
    "C93_rekey",
    "C93_adiantum",
    "C93_arcfour",
    "C93_sessions"
   ],
   "note": "FINDING: of the 2^32 values of the QUIC counter one is refused. C93_quic_partial excludes samples that begin with four bytes 255; for those try_apply_keystream answers an error and seek plus apply_keystream panics (C93_quic_refuted), although RFC 9001 defines the mask and the sender chooses the sample. The block-level interface answers for every sample (C93_quic_core). For secretstream the longest message libsodium allows is refused (stated in C93_secretstream, as C81 for RFC 8439)."
  },
  {
   "property": "C94",
   "status": "proved",
   "theorems": [
    "C94_parsed",
    "C94_chacha",
    "C94_chacha20_rfc8439",
    "C94_xchacha",
    "C94_chacha_functions",
    "C94_salsa",
    "C94_xsalsa",
    "C94_salsa_functions",
    "C94_rabbit_key_only",
    "C94_rabbit"
   ],
   "note": "The subject is the text of the files, not the model: a parser and an evaluator for the Rust it uses are part of the development and of the trusted base. Covers the portable code; process_with_backend, the wrappers of the cipher crate and the vector backends stay with the model."
  },
  {
   "property": "C95",
   "status": "proved",
   "theorems": [
    "C95_rc4",
    "C95_rc4_functions",
    "C95_hc256"
   ],
   "note": "Subject: the text of the files, under the same evaluator as C94 (extended by wrapping operations on usize kept symbolic, and by the crate inout's buffers)."
  },
  {
   "property": "C96",
   "status": "proved",
   "theorems": [
    "C96_history",
    "C96_checked",
    "C96_family"
   ],
   "note": "Subject: the text of the macro. C96_checked confirms, for the text itself, that get_block_pos panics at the end of the stream with overflow checks (C26_get_block_pos_refuted)."
  },
  {
   "property": "C97",
   "status": "proved",
   "theorems": [
    "C97_state",
    "C97_equal",
    "C97_copy"
   ],
   "note": "Subject: the text of the macro."
  }
 ]
}