{"id": "C01", "title": "ChaCha{8,12,20} keystream is the RFC 8439 block function", "statement": "Constructing ChaCha8/12/20 with a 32-byte key and 12-byte nonce never panics, and the n-th 64-byte keystream block it produces is exactly the RFC 8439 block function (with 8/12/20 rounds) of (key, block counter n mod 2^32, nonce), serialised little-endian.", "quantifier": "every key, every nonce, every block number, every number of double rounds (8, 12 and 20 rounds are instances)", "why_tests_cant": "A known-answer test covers a handful of (key, nonce, counter) triples out of 2^384; a wrong rotation or index can be invisible on structured inputs such as zero keys.", "anchors": ["chacha20/src/lib.rs: ChaChaCore::new_internal, quarter_round", "chacha20/src/backends/soft.rs: Backend::gen_ks_block, run_rounds", "chacha20/src/chacha.rs: KeyIvInit for ChaChaCore<R, Ietf>"]}
{"id": "C02", "title": "ChaCha20Legacy keystream is the original 64-bit-counter/64-bit-nonce block function", "statement": "Constructing ChaCha20Legacy with a 32-byte key and 8-byte nonce never panics, and its n-th block is djb's ChaCha block of (key, 64-bit counter n mod 2^64, 64-bit nonce): the counter carries from the low into the high word.", "quantifier": "every key, every 8-byte nonce, every 64-bit block number", "why_tests_cant": "The carry into the second counter word happens only after 2^32 blocks (256 GiB); tests can only seek near a few boundaries.", "anchors": ["chacha20/src/legacy.rs", "chacha20/src/variants.rs: Legacy", "chacha20/src/backends/soft.rs: gen_ks_block"]}
{"id": "C03", "title": "SSE2 backend computes the same blocks as the portable code", "statement": "For any core state, either counter width, any number of rounds and any sequence of single-block / 4-block / tail requests a caller's closure makes, the SSE2 backend emits exactly the successive keystream blocks the portable backend would, and leaves the core in the same state.", "quantifier": "every 16-word state, every finite sequence of backend requests, both variants, every round count", "why_tests_cant": "The lane shuffles, the 32- versus 64-bit counter additions and the write-back of the counter depend on counter values near wrap-around and on the interleaving of request sizes.", "anchors": ["chacha20/src/backends/sse2.rs: inner, Backend, rounds, double_quarter_round, rows_to_cols, cols_to_rows, add_xor_rot"]}
{"id": "C04", "title": "AVX2 backend computes the same blocks as the portable code", "statement": "As C03 for the AVX2 backend (two blocks per 256-bit vector, byte-shuffle rotations, four-block batches).", "quantifier": "every 16-word state, every finite sequence of backend requests, both variants, every round count", "why_tests_cant": "Interleaving single-block and four-block requests keeps two lane-paired counters in step; only an inductive argument covers all interleavings and wrap points.", "anchors": ["chacha20/src/backends/avx2.rs: inner, Backend, rounds, add_xor_rot, rows_to_cols, cols_to_rows"]}
{"id": "C05", "title": "AVX-512 backend computes the same blocks as the portable code, for every tail length", "statement": "As C03 for the AVX-512 backend: 16-block batches, and the 1-, 2-, 3..4-, 5..8- and 9..15-block tail paths with their different vector widths and transposes; tail requests shorter than 16 never panic.", "quantifier": "every 16-word state, every finite sequence of backend requests with every legal tail length, both variants, every round count", "why_tests_cant": "Five code paths times two variants times all counter wrap positions; AVX-512 hardware is usually absent from CI.", "anchors": ["chacha20/src/backends/avx512.rs: inner, increment_ctr, gen_blocks_fullwidth, gen_blocks_halfwidth, gen_ks_block, gen_tail_blocks, rounds, rounds_halfwide, rounds_quarterwide"]}
{"id": "C06", "title": "NEON backend computes the same blocks as the portable code", "statement": "As C03 for the NEON backend (8-block batches, vext-based diagonalisation, table/rev rotations, vst1q_u64 write-back of the counter row).", "quantifier": "every 16-word state, every finite sequence of backend requests, both variants, every round count", "why_tests_cant": "Requires aarch64 hardware, and the 64-bit write-back overwrites the nonce words: correct only because they are never changed, which is a for-all statement.", "anchors": ["chacha20/src/backends/neon.rs: Backend::new, inner, gen_ks_block, gen_par_ks_blocks, double_quarter_round, add_xor_rot, rows_to_cols, cols_to_rows"]}
{"id": "C07", "title": "Choice of backend is unobservable for the stream cipher", "statement": "Whatever backend the compile-time configuration or the runtime CPU detection selects, writing or applying any number of keystream blocks gives the same bytes and the same subsequent cipher behaviour.", "quantifier": "every state, every number of blocks, every pair of backends, every configuration and every outcome of CPU feature detection", "why_tests_cant": "A test process runs on one CPU with one configuration.", "anchors": ["chacha20/src/lib.rs: process_with_backend", "chacha20/src/backends.rs"]}
{"id": "C08", "title": "Generating keystream only ever moves the counter", "statement": "After generating any number n of blocks, the constants, key and nonce held by the cipher are unchanged and the block position has advanced by exactly n modulo 2^32 (IETF) or 2^64 (legacy); for the IETF variant an overflow of the counter never carries into the nonce.", "quantifier": "every state, every n, both variants, every backend", "why_tests_cant": "The carry can only be observed after 2^32 blocks, and the absence of nonce corruption must hold for every nonce.", "anchors": ["chacha20/src/backends/soft.rs: gen_ks_block", "chacha20/src/lib.rs: get_block_pos", "chacha20/src/variants.rs"]}
{"id": "C09", "title": "Block seeking: set_block_pos/get_block_pos", "statement": "set_block_pos(p) followed by get_block_pos returns p, changes nothing but the position, and the next block generated is block p of the same key/nonce keystream.", "quantifier": "every state, every representable p, both variants", "why_tests_cant": "2^32 or 2^64 positions.", "anchors": ["chacha20/src/variants.rs: get_block_pos, set_block_pos", "chacha20/src/lib.rs: ChaChaCore::{get_block_pos,set_block_pos}"]}
{"id": "C10", "title": "remaining_blocks is exact and never lets the counter wrap, on any pointer width", "statement": "remaining_blocks returns MAX - block_pos (MAX = 2^32-1 or 2^64-1) when that fits in usize and None otherwise; in both cases generating as many blocks as any request the wrapper accepts under that answer (a request being limited by usize) leaves the counter un-wrapped.", "quantifier": "every block position, every pointer width of 16, 32 or 64 bits, every accepted request length", "why_tests_cant": "CI runs on one pointer width and cannot allocate requests near the limits.", "anchors": ["chacha20/src/variants.rs: remaining_blocks", "salsa20/src/lib.rs: remaining_blocks"]}
{"id": "C11", "title": "XChaCha is ChaCha under the HChaCha subkey", "statement": "XChaCha{8,12,20}::new(key, 24-byte nonce) never panics and yields the keystream of IETF ChaCha with key HChaCha(key, nonce[0..16]) and nonce 0^4 || nonce[16..24].", "quantifier": "every key, every 24-byte nonce, every block number, every round count", "why_tests_cant": "Test vectors cover one or two nonces; a wrong slice boundary can hide when bytes repeat.", "anchors": ["chacha20/src/xchacha.rs: XChaChaCore::new, hchacha"]}
{"id": "C12", "title": "hchacha is HChaCha of the XChaCha draft", "statement": "hchacha(key, input) returns words 0..3 and 12..15 of the ChaCha permutation (no feed-forward) applied to constants || key || input, little-endian; equivalently it equals those words of the ChaCha block with the known input words subtracted.", "quantifier": "every key, every 16-byte input, every round count", "why_tests_cant": "One published test vector.", "anchors": ["chacha20/src/xchacha.rs: hchacha"]}
{"id": "C13", "title": "apply_keystream is XOR with the keystream, independent of chunking", "statement": "For a freshly constructed cipher (ChaCha, ChaChaLegacy, XChaCha, Salsa, XSalsa, Rabbit, RabbitKeyOnly, HC-256, RC4), applying the keystream to a message split into any list of chunks, of any sizes including zero, gives the message XOR the cipher's keystream bytes 0..len; the split is unobservable.", "quantifier": "every key, nonce, message and every partition of the message into calls (within the keystream limit)", "why_tests_cant": "Partitions grow exponentially; tests try fixed chunk sizes on short messages.", "anchors": ["chacha20/src/chacha.rs", "salsa20/src/lib.rs", "rabbit/src/lib.rs", "hc-256/src/lib.rs", "rc4/src/lib.rs: unchecked_apply_keystream_inout"]}
{"id": "C14", "title": "Decryption inverts encryption", "statement": "Encrypting a message with one cipher instance under any chunking and decrypting it with another instance of the same key and nonce under any other chunking returns the original message.", "quantifier": "every cipher, key, nonce, message, pair of chunkings", "why_tests_cant": "Needs all messages and all pairs of chunkings.", "anchors": ["chacha20/src/lib.rs", "salsa20/src/lib.rs", "rabbit/src/lib.rs", "hc-256/src/lib.rs", "rc4/src/lib.rs"]}
{"id": "C15", "title": "write_keystream, in-place and buffer-to-buffer application agree", "statement": "write_keystream(n) returns the same bytes and leaves the same state as applying the keystream to n zero bytes; buffer-to-buffer application writes what in-place application would and rejects buffers of different length without touching the cipher.", "quantifier": "every cipher state, every n, every input", "why_tests_cant": "For-all over states in mid-block positions.", "anchors": ["rc4/src/lib.rs: unchecked_write_keystream, unchecked_apply_keystream_inout", "chacha20/src/lib.rs: process_with_backend"]}
{"id": "C16", "title": "Seeking: the position reported, and the keystream used, are those asked for", "statement": "For ChaCha, ChaChaLegacy, XChaCha, Salsa and XSalsa: when try_seek(p) succeeds with p at most the usable keystream limit, current_pos returns p, the next n bytes use keystream bytes p..p+n, and afterwards current_pos returns p+n. try_seek fails exactly when p's block number does not fit the counter.", "quantifier": "every prior history, every position p, every n within the limit", "why_tests_cant": "Positions range over 2^38 or 2^70 bytes and interact with the cached partial block.", "anchors": ["chacha20/src/lib.rs: StreamCipherSeekCore", "salsa20/src/lib.rs: StreamCipherSeekCore", "chacha20/src/xchacha.rs", "salsa20/src/xsalsa.rs"]}
{"id": "C17", "title": "Any history of seeks, writes and applies behaves like a position into a fixed keystream", "statement": "For every finite sequence of apply/write/seek/current_pos calls, every output is the one given by an abstract machine whose only state is a byte position into the fixed keystream determined by (key, nonce).", "quantifier": "every finite history of API calls, every argument", "why_tests_cant": "Histories are unbounded; the cached-block state machine has corner cases at block boundaries that only arise in specific orders.", "anchors": ["chacha20/src/lib.rs", "salsa20/src/lib.rs"]}
{"id": "C18", "title": "A failed call changes nothing, and calls fail exactly at the end of the keystream", "statement": "try_apply_keystream/try_write_keystream fail exactly when the request would pass the last usable keystream byte (64*(2^32-1) bytes for 32-bit counters, 64*(2^64-1) for 64-bit ones), and on failure neither the buffer nor the cipher changes: a shorter retry behaves as if the failed call had not been made.", "quantifier": "every reachable state, every request length", "why_tests_cant": "The limit lies at 256 GiB or more.", "anchors": ["chacha20/src/variants.rs: remaining_blocks", "salsa20/src/lib.rs: remaining_blocks"]}
{"id": "C19", "title": "No keystream byte is used twice as long as the caller does not seek", "statement": "From a fresh cipher, over any sequence of successful apply/write calls, each byte uses a strictly increasing keystream position below the limit, so no (key, nonce, counter, offset) is ever used twice and the counter never wraps.", "quantifier": "every sequence of calls of any lengths, including failing ones in between", "why_tests_cant": "Wrap-around needs 256 GiB of calls.", "anchors": ["chacha20/src/variants.rs: remaining_blocks", "chacha20/src/lib.rs", "salsa20/src/lib.rs"]}
{"id": "C20", "title": "The end-of-keystream guard also holds after seeking", "statement": "After any history including seeks, a successful apply call never runs past the last keystream block and re-uses block 0 of the keystream.", "quantifier": "every history including seeks to every position accepted by try_seek", "why_tests_cant": "Requires seeking into the very last block (position >= 64*(2^32-1)+1) and then crossing the end.", "anchors": ["chacha20/src/variants.rs: Ietf::remaining_blocks", "chacha20/src/backends/soft.rs: gen_ks_block", "salsa20/src/backends/soft.rs: gen_ks_block"]}
{"id": "C21", "title": "RNG output is one fixed word stream under any interleaving of draws", "statement": "Any interleaving of next_u32, next_u64 and fill_bytes(len) on ChaCha{8,12,20}Rng consumes consecutive 32-bit words of one fixed stream: next_u64 takes two words low half first, fill_bytes(len) takes ceil(len/4) words in little-endian order and discards the unused bytes of the last word.", "quantifier": "every seed, every finite interleaving of calls with every length", "why_tests_cant": "Draws straddling the 64-word buffer boundary arise only for certain histories; histories are unbounded.", "anchors": ["chacha20/src/rng.rs: TryRng for $Rng", "chacha20/src/rng.rs: Generator for ChaChaCore"]}
{"id": "C22", "title": "The RNG word stream is the ChaCha keystream of (seed, stream id)", "statement": "Word w of the stream is word (w mod 16) of the djb ChaCha block with key = seed, nonce = stream id (little-endian) and 64-bit counter floor(w/16) mod 2^64; fill_bytes therefore yields ChaCha20Legacy keystream bytes.", "quantifier": "every seed, stream id, word index (mod 2^68) and round count", "why_tests_cant": "68-bit index space.", "anchors": ["chacha20/src/rng.rs: from_seed, set_stream, generate", "chacha20/src/backends/soft.rs: gen_ks_blocks"]}
{"id": "C23", "title": "RNG output does not depend on the backend", "statement": "For the RNG types, the four-block refill computed by the portable, SSE2, AVX2 and NEON paths is identical, including when the counter crosses 2^32 or wraps at 2^64, and all leave the same counter.", "quantifier": "every state, every counter value, every backend and configuration", "why_tests_cant": "Cross-CPU reproducibility cannot be tested in one process; counters near wrap are rare.", "anchors": ["chacha20/src/backends/{soft.rs: gen_ks_blocks, sse2.rs: rng_inner, avx2.rs: rng_inner, neon.rs: rng_inner}", "chacha20/src/rng.rs: generate"]}
{"id": "C24", "title": "RNG word position: accounting and seeking", "statement": "get_word_pos after any history equals (position set + words consumed) mod 2^68; set_word_pos(p) makes get_word_pos return p mod 2^68 and the next word drawn is word p mod 2^68 of the stream; upper 60 bits of p are ignored; the generator cycles after 2^68 words.", "quantifier": "every history, every 128-bit p", "why_tests_cant": "68-bit position space, wrap-around of the refilled counter.", "anchors": ["chacha20/src/rng.rs: get_word_pos, set_word_pos"]}
{"id": "C25", "title": "RNG block position", "statement": "set_block_pos(b) makes the next word drawn word 16*b, get_block_pos then returns b; after any history get_block_pos is the block containing the next word (floor(word_pos/16)), in builds without overflow checks.", "quantifier": "every history, every 64-bit b", "why_tests_cant": "64-bit space, interplay with the four-block buffer.", "anchors": ["chacha20/src/rng.rs: set_block_pos, get_block_pos"]}
{"id": "C26", "title": "RNG get_block_pos never panics", "statement": "get_block_pos returns the block position in every reachable state and every build profile, without arithmetic-overflow panics.", "quantifier": "every history, both overflow-check settings", "why_tests_cant": "Fails only within the last few blocks before the 64-bit counter wraps.", "anchors": ["chacha20/src/rng.rs: get_block_pos"]}
{"id": "C27", "title": "RNG stream selection", "statement": "set_stream(s) makes get_stream return s, resets the word position to 0, keeps the seed, and the subsequent output is stream s of the seed from its beginning, whatever happened before.", "quantifier": "every history, every 64-bit s", "why_tests_cant": "State left in the 64-word buffer by arbitrary histories must never leak into the new stream.", "anchors": ["chacha20/src/rng.rs: set_stream, get_stream, set_block_pos"]}
{"id": "C28", "title": "RNG seed is recoverable and immutable", "statement": "get_seed returns exactly the 32 bytes given to from_seed, after any history of draws, seeks, and stream changes.", "quantifier": "every seed, every history", "why_tests_cant": "Unbounded histories.", "anchors": ["chacha20/src/rng.rs: get_seed, from_seed"]}
{"id": "C29", "title": "RNG state serialisation round-trips", "statement": "deserialize_state(serialize_state(r)) compares equal to r and produces the same results as r for every future sequence of calls; serialize_state is injective on (seed, stream, word position) with layout seed || stream LE || 9-byte LE word position; deserialising any 49-byte array and serialising again returns it except that the top 4 bits are cleared.", "quantifier": "every reachable state, every 49-byte array, every future history", "why_tests_cant": "The round trip rebuilds the buffer from a position; equality of all futures is a bisimulation.", "anchors": ["chacha20/src/rng.rs: serialize_state, deserialize_state"]}
{"id": "C30", "title": "RNG equality means equal futures", "statement": "If two RNGs compare equal, every identical sequence of calls gives identical results on both, and they remain equal afterwards, even when they buffer different parts of the stream.", "quantifier": "every pair of reachable RNG states, every future history", "why_tests_cant": "Needs all pairs of states with differing buffers and unbounded futures.", "anchors": ["chacha20/src/rng.rs: PartialEq for $Rng"]}
{"id": "C31", "title": "The public core is usable as a Generator/SeedableRng for both variants", "statement": "ChaChaCore<R, V> as SeedableRng never panics in from_seed, and as Generator gives backend-independent output, for both variants V.", "quantifier": "both variants, every seed, every state", "why_tests_cant": "The IETF instantiation is never exercised by the test-suite.", "anchors": ["chacha20/src/rng.rs: SeedableRng for ChaChaCore, Generator for ChaChaCore", "chacha20/src/lib.rs: new_internal"]}
{"id": "C32", "title": "Salsa{8,12,20} keystream is the Salsa20 specification's", "statement": "Salsa new(key, nonce) never panics and its n-th block is the Salsa20 expansion of (key, nonce, 64-bit little-endian counter n), n < 2^64, for 8/12/20 rounds.", "quantifier": "every key, nonce, counter, round count", "why_tests_cant": "Test vectors cover few points of 2^384.", "anchors": ["salsa20/src/lib.rs: KeyIvInit for SalsaCore", "salsa20/src/backends/soft.rs: gen_ks_block, run_rounds, quarter_round"]}
{"id": "C33", "title": "Salsa block seeking and counter", "statement": "set_block_pos(p)/get_block_pos round-trip for all 64-bit p without touching key or nonce, and generating n blocks advances the position by n; crossing 2^64 panics exactly in builds with overflow checks and wraps otherwise.", "quantifier": "every state, every p, every n, both build profiles", "why_tests_cant": "Carry between the two counter words and overflow at 2^64.", "anchors": ["salsa20/src/lib.rs: StreamCipherSeekCore", "salsa20/src/backends/soft.rs: gen_ks_block"]}
{"id": "C34", "title": "hsalsa and XSalsa match 'Extending the Salsa20 nonce'", "statement": "hsalsa(key, input) is HSalsa20; XSalsa::new(key, nonce24) never panics and yields the Salsa keystream of key HSalsa(key, nonce[0..16]) and nonce nonce[16..24].", "quantifier": "every key, nonce, block number, round count", "why_tests_cant": "Few test vectors.", "anchors": ["salsa20/src/xsalsa.rs: XSalsaCore::new, hsalsa"]}
{"id": "C35", "title": "HSalsa output is recoverable from the Salsa core output", "statement": "For every key and 16-byte input, each word hsalsa returns equals the corresponding word of the Salsa block computed on the same 16-word matrix minus the public input word: the identity underlying the XSalsa security proof.", "quantifier": "every key, input, round count", "why_tests_cant": "Relates two separately written functions on all inputs.", "anchors": ["salsa20/src/xsalsa.rs: hsalsa", "salsa20/src/backends/soft.rs: run_rounds"]}
{"id": "C36", "title": "from_raw_state + one block is the Salsa core hash of any 16-word state", "statement": "For any 16-word state (as scrypt uses it), building a core from it and generating one block returns the Salsa core function of the state, in every build profile.", "quantifier": "every 512-bit state, both overflow-check settings, every round count", "why_tests_cant": "Fails, if at all, for one value of two state words: probability 2^-64 per random state.", "anchors": ["salsa20/src/lib.rs: from_raw_state", "salsa20/src/backends/soft.rs: gen_ks_block"]}
{"id": "C37", "title": "Rabbit follows RFC 4503", "statement": "RabbitKeyOnly::new(key) and Rabbit::new(key, iv) followed by any number of blocks produce exactly the RFC 4503 keystream, with key, IV and output block read as 128-/64-/128-bit little-endian integers.", "quantifier": "every 128-bit key, 64-bit IV, every block number", "why_tests_cant": "RFC vectors cover three keys and three IVs, three blocks each.", "anchors": ["rabbit/src/lib.rs: State::{setup_key,setup_iv,counter_update,next_state,extract,next_block}, InnerIvInit"]}
{"id": "C38", "title": "Rabbit's counter system is a 256-bit odometer that does not repeat for 2^256-1 blocks", "statement": "The eight counters with the carry act as one 256-bit addition of the constant A with end-around carry; consequently the internal state of one keystream never repeats within 2^256-2 consecutive blocks, in particular not within the 2^64 blocks the code comments promise.", "quantifier": "every key, IV, every pair of block numbers less than 2^256-1 apart", "why_tests_cant": "Period of 2^256.", "anchors": ["rabbit/src/lib.rs: counter_update, remaining_blocks"]}
{"id": "C39", "title": "Rabbit never panics and never overflows", "statement": "No input and no number of blocks makes the Rabbit code hit an arithmetic overflow or out-of-bounds index in any build profile, and the stored carry is always 0 or 1.", "quantifier": "every key, IV, block count, both build profiles", "why_tests_cant": "Overflow depends on 2^513 states.", "anchors": ["rabbit/src/lib.rs: counter_update, next_state"]}
{"id": "C40", "title": "HC-256 follows its specification", "statement": "Hc256::new(key, iv) followed by any number of words produces the HC-256 keystream defined by the recurrences over unbounded step index i (the code keeps the index modulo 2048).", "quantifier": "every 256-bit key and IV, every word index", "why_tests_cant": "Specification is an infinite recurrence; vectors cover the first 16 words of three (key, iv) pairs.", "anchors": ["hc-256/src/lib.rs: KeyIvInit for Hc256Core, gen_word, g1, g2, h1, h2"]}
{"id": "C41", "title": "HC-256 never panics", "statement": "No key, IV or number of generated words makes an out-of-bounds table access or arithmetic overflow; the index stays below 2048 and the tables keep 1024 32-bit words.", "quantifier": "every key, IV, word count, both build profiles", "why_tests_cant": "Table indices are data dependent.", "anchors": ["hc-256/src/lib.rs: gen_word, g1, g2, h1, h2, new"]}
{"id": "C42", "title": "RC4 follows the RC4 algorithm", "statement": "For every key of 1..256 bytes, the keystream is RC4's: key schedule with the key repeated cyclically, then PRGA.", "quantifier": "every key length 1..256, every key, every number of output bytes", "why_tests_cant": "RFC 6229 vectors cover fourteen keys.", "anchors": ["rc4/src/lib.rs: new_from_slice, prga"]}
{"id": "C43", "title": "RC4 state is always a permutation and never panics", "statement": "In every reachable state the S-box is a permutation of 0..255, so no index is out of bounds and no panic can occur.", "quantifier": "every key, every number of bytes generated", "why_tests_cant": "Invariant over unbounded executions.", "anchors": ["rc4/src/lib.rs: new_from_slice, prga"]}
{"id": "C44", "title": "RC4 accepts exactly keys of 1 to 256 bytes", "statement": "new_from_slice fails with InvalidLength exactly for lengths 0 and above 256; new (32-byte key) never panics and agrees with new_from_slice.", "quantifier": "every byte string of every length", "why_tests_cant": "Unbounded lengths.", "anchors": ["rc4/src/lib.rs: new_from_slice, new"]}
{"id": "C45", "title": "RC4 cyclic key equivalence", "statement": "Two accepted keys that agree when repeated cyclically to 256 bytes (e.g. k and k||k) give identical ciphers: a key is only as long as its cyclic root.", "quantifier": "every key and every repetition count with total length at most 256", "why_tests_cant": "All keys and repetitions.", "anchors": ["rc4/src/lib.rs: new_from_slice"]}
{"id": "C46", "title": "RC4 never enters Finney's short cycles; its state update is invertible", "statement": "The generator's state update is a bijection on states, and from any key the forbidden states (j = i+1 and S[j] = 1) are unreachable.", "quantifier": "every key, every number of steps", "why_tests_cant": "Reachability over 256!*2^16 states.", "anchors": ["rc4/src/lib.rs: prga, new_from_slice"]}
{"id": "C47", "title": "RC4 streaming and involution", "statement": "RC4 apply_keystream over any chunking equals XOR with the keystream, applying it twice from equal states is the identity, and it never fails.", "quantifier": "every key, message, chunking", "why_tests_cant": "Unbounded messages and partitions.", "anchors": ["rc4/src/lib.rs: StreamCipher for Rc4"]}
{"id": "C48", "title": "Dropping a cipher or RNG wipes its secrets (zeroize feature)", "statement": "With the zeroize feature, after drop the memory that held cipher or RNG state (including the RNG's output buffer) is the same whatever the key, nonce, position and history were.", "quantifier": "every reachable state of every type", "why_tests_cant": "Non-interference over all secrets; freed memory cannot be read by safe tests.", "anchors": ["chacha20/src/lib.rs: Drop", "chacha20/src/rng.rs: Generator::drop", "salsa20/src/lib.rs: Drop", "hc-256/src/lib.rs: Drop", "rabbit/src/lib.rs: Drop", "rc4/src/lib.rs: Drop"]}
{"id": "C49", "title": "Debug output reveals nothing secret", "statement": "The Debug rendering of ChaChaCore, XChaChaCore, ChaCha*Rng and Hc256Core depends only on the type parameters, never on key, nonce, position or buffered output.", "quantifier": "every pair of states of the same type", "why_tests_cant": "Non-interference over all states.", "anchors": ["chacha20/src/lib.rs: Debug", "chacha20/src/rng.rs: Debug", "chacha20/src/xchacha.rs: derive(Debug)", "hc-256/src/lib.rs: Debug"]}
{"id": "C50", "title": "Portable ChaCha and Salsa execute in constant time at source level", "statement": "The sequence of branches taken and array indices accessed by the portable ChaCha and Salsa block functions, their constructors and counter updates depends only on public lengths and round counts, never on key, nonce, counter or data.", "quantifier": "every pair of states, every round count", "why_tests_cant": "Non-interference over all pairs of executions.", "anchors": ["chacha20/src/lib.rs: quarter_round", "chacha20/src/backends/soft.rs: run_rounds", "salsa20/src/backends/soft.rs: run_rounds"]}
{"id": "C51", "title": "Unsafe pointer code of the SIMD backends stays in bounds and fills exactly the caller's buffers", "statement": "Every raw-pointer load, store and pointer move in the SSE2, AVX2, AVX-512 and NEON backends (cipher and RNG entry points) stays inside its allocation, overwrites every byte of the output buffers whatever they held, never touches anything else, and leaves in them the keystream and in the state the counter that the value-level model describes.", "quantifier": "every state, every closure of requests with buffers of the types the trait demands, every initial buffer content, both variants, every round count", "why_tests_cant": "Out-of-bounds accesses by SIMD stores are silent; each backend only runs on its own hardware; tail sizes take different code paths.", "anchors": ["chacha20/src/backends/sse2.rs: gen_ks_block, gen_par_ks_blocks, gen_ks_blocks", "chacha20/src/backends/avx2.rs: gen_par_ks_blocks, rng_gen_par_ks_blocks", "chacha20/src/backends/avx512.rs: gen_blocks_fullwidth, gen_blocks_halfwidth, gen_tail_blocks", "chacha20/src/backends/neon.rs: gen_par_ks_blocks, write_par_ks_blocks, inner"]}
{"id": "C52", "title": "The selected backend only executes instructions the CPU has", "statement": "On every CPU, in every configuration that builds for it, the backend that process_with_backend or Generator::generate selects executes only intrinsics whose instruction-set extension that CPU has.", "quantifier": "every CPU (set of extensions closed under the architectural implications), every build configuration, both variants", "why_tests_cant": "CI machines have every extension the code could use, so an intrinsic from too new an extension goes unnoticed.", "anchors": ["chacha20/src/lib.rs: process_with_backend, Tokens", "chacha20/src/rng.rs: generate", "chacha20/src/backends/sse2.rs: inner, rng_inner", "chacha20/src/backends/avx2.rs", "chacha20/src/backends/avx512.rs"]}
{"id": "C53", "title": "ChaCha and Salsa rounds are permutations and their inputs never collide", "statement": "Any number of ChaCha or Salsa double rounds is a bijection of the 16-word states; a block minus its input determines the input; and distinct (key, nonce, block position) triples give distinct block inputs.", "quantifier": "every state, every number of rounds, every key, nonce and position, both variants", "why_tests_cant": "Injectivity over 2^512 states.", "anchors": ["chacha20/src/lib.rs: quarter_round, new_internal", "chacha20/src/variants.rs: set_block_pos", "chacha20/src/backends/soft.rs: run_rounds", "salsa20/src/lib.rs: new, set_block_pos", "salsa20/src/backends/soft.rs: run_rounds"]}
{"id": "C54", "title": "The SIMD intrinsics are modelled as the vendors specify them", "statement": "Each intrinsic of the model, viewed on the register as one integer, computes the bit fields given by Intel's and Arm's pseudo-code: lane-wise modular sums, shifts, rotations, exclusive-or, shuffles, table lookups, two-source permutations, broadcasts and extractions, and it returns a register of the right width.", "quantifier": "every register content; every in-range immediate that the code uses", "why_tests_cant": "The equivalence theorems on the SIMD backends are only as good as the intrinsics' semantics; a wrong lane order that is applied consistently cancels out in tests of the model.", "anchors": ["chacha20/src/backends/sse2.rs", "chacha20/src/backends/avx2.rs", "chacha20/src/backends/avx512.rs", "chacha20/src/backends/neon.rs"]}
{"id": "C55", "title": "HC-256 states never merge", "statement": "The HC-256 state update is injective on valid states, and two ciphers set up with different (key, IV) never hold the same state after the same number of blocks.", "quantifier": "every valid state; every pair of keys and IVs, every number of blocks", "why_tests_cant": "Injectivity over a 65536-bit state space.", "anchors": ["hc-256/src/lib.rs: new, init, gen_word"]}
{"id": "C56", "title": "Seeking and reporting positions works for every integer type of SeekNum, including negative values", "statement": "For every seekable cipher and every history of calls whose positions are i32, u32, u64, u128 or usize values: a non-negative position behaves as the same number in any other type; a negative position never moves the cipher (less than a block below zero panics, further below is refused); a reported position is the exact byte offset, or an error when the end of its block does not fit the type, and is never negative.", "quantifier": "all seekable ciphers, keys, nonces, environments (usize of 16, 32, 64 bits, overflow checks on or off), all five integer types, all histories", "why_tests_cant": "The tests seek with small non-negative values of one type. Truncating division of negative values, the u8 cast of the byte offset and the checked subtraction near a wrapped counter only matter for inputs nobody tries.", "anchors": ["chacha20/src/lib.rs:218-231", "chacha20/src/xchacha.rs:69-93", "salsa20/src/lib.rs:120-144", "salsa20/src/xsalsa.rs:52-76"]}
{"id": "C57", "title": "Rabbit and the SIMD pointer code are constant-time; RC4 and HC-256 leak their whole key", "statement": "Rabbit set-up and keystream generation, and the SIMD ChaCha backends (SSE2, AVX2, AVX-512, NEON; cipher and generator entry points), take the same branches and touch the same addresses whatever the key, IV, counter and previous buffer contents. RC4's key schedule and HC-256's keystream generation do not: the indices of RC4's key schedule determine the key including its length, and those of 3084 consecutive HC-256 words determine key and IV.", "quantifier": "every pair of keys, IVs, states, output buffers, block counts and request sequences; both overflow-check settings", "why_tests_cant": "Non-interference is a statement about all pairs of executions, and that a leak determines the key is an injectivity statement over all keys.", "anchors": ["rabbit/src/lib.rs: next_state, setup_key, setup_iv, extract", "chacha20/src/backends/sse2.rs, avx2.rs, avx512.rs, neon.rs", "rc4/src/lib.rs: new_from_slice", "hc-256/src/lib.rs: gen_word"]}
{"id": "C58", "title": "Every build configuration of chacha20 except one resolves all names and token types exactly once", "statement": "For every set of Cargo features (cipher, rng, legacy, xchacha, zeroize), every architecture and set of static target features, every chacha20_backend value and with or without chacha20_avx512: each name the conditionally compiled code uses is declared exactly once, the tokens field is given a value of its declared type, and no compile_error! fires unless a forced backend lacks its target feature; the backend module that the dispatch selects is compiled in. The exception (violating the claim): chacha20_backend=\"avx512\" without chacha20_avx512 on x86 with any cipher feature or rng gives tokens the value () where its type is a pair.", "quantifier": "all 2^5 feature sets x 4 architectures x 2^5 target-feature sets x 5 backend settings x chacha20_avx512 on/off (40960 builds), and all CPUs for the dispatch part", "why_tests_cant": "A test suite compiles one configuration at a time; CI matrices cover a handful of the 40960 combinations, and the broken one does not produce a test failure but a compile error nobody sees unless it is in the matrix.", "anchors": ["chacha20/src/lib.rs:9-43", "chacha20/src/lib.rs:82-116", "chacha20/src/lib.rs:138-190", "chacha20/src/lib.rs:232-299", "chacha20/src/backends.rs:1-31", "chacha20/src/rng.rs:49-92", "chacha20/Cargo.toml:22-44"]}
{"id": "C59", "title": "The Salsa core reached through from_raw_state collides under toggling all top bits; cipher states never do", "statement": "For every 16-word state, SalsaCore::from_raw_state(s) and from_raw_state(s with the top bit of all sixteen words toggled) produce the same block, for every number of rounds and in both build profiles (except the overflow panic of C36); yet no two (key, nonce, position) give cipher states related in that way, so the cipher itself is unaffected. ChaCha's core does not have this relation.", "quantifier": "all 16-word states, all round counts, both build profiles; all pairs of keys, nonces and 64-bit positions", "why_tests_cant": "A relation between the outputs of two states, for all 2^512 states; a test could only sample pairs, and would have to know the relation. A wrong quarter round, or constants placed in other words, breaks it.", "anchors": ["salsa20/src/lib.rs:63-73", "salsa20/src/backends/soft.rs:35-70", "salsa20/src/lib.rs:88-117"]}
{"id": "C60", "title": "RC4's second keystream byte is 0 whenever the schedule leaves S[2] = 0 and S[1] <> 2", "statement": "For every accepted key, if after key setup S[2] = 0 and S[1] <> 2 then the second keystream byte is 0, so the second byte of any message is output unchanged (Mantin and Shamir's bias, the reason for RC4's broadcast insecurity).", "quantifier": "all keys of 1..256 bytes whose schedule meets the condition; all messages", "why_tests_cant": "About one key in 256 meets the condition, so sampling keys says nothing about all of them; the claim follows only from the exact order of increment, swap and output in prga.", "anchors": ["rc4/src/lib.rs:35-44", "rc4/src/lib.rs:58-76", "rc4/src/lib.rs:90-100"]}
{"id": "C61", "title": "Under one Rabbit key, different IVs never share an internal state at the same block", "statement": "For every key and two different IVs, the two Rabbit ciphers differ in their counters (or carry) after any equal number of blocks, unless the counters left by the key setup consist of two equal halves of four words (the only states that an IV could turn into all-zero counters).", "quantifier": "all 128-bit keys, all pairs of different 64-bit IVs, all numbers of blocks", "why_tests_cant": "Quantifies over all pairs of IVs and unbounded block counts; a lost IV bit (for instance a wrong mask or shift in setup_iv) would merge keystreams only for some pairs of IVs.", "anchors": ["rabbit/src/lib.rs:99-131", "rabbit/src/lib.rs:134-162", "rabbit/src/lib.rs:266-270"]}
{"id": "C62", "title": "The NEON backend behaves as the portable code on both byte orders of aarch64", "statement": "On every aarch64 target the cfg conditions select NEON for, little- or big-endian, the NEON cipher and generator entry points produce the bytes, words and successor state of the portable code. (False on big-endian targets for the 64-bit counter and for the generators.)", "quantifier": "both byte orders, both variants, every state, every closure of requests, every round count", "why_tests_cant": "CI runs no big-endian aarch64 target, and the wrong state only shows in the second call.", "anchors": ["chacha20/src/backends/neon.rs:85-88, 106-109: vst1q_u64 write-back", "chacha20/src/backends/neon.rs:278-305: write_par_ks_blocks", "chacha20/src/lib.rs:289, chacha20/src/rng.rs:83, chacha20/src/backends.rs:27: selection without an endianness test"]}
{"id": "C63", "title": "ChaCha20Legacy, ChaCha20 and XChaCha20 share their keystreams where the formats overlap", "statement": "Encrypting with ChaCha20Legacy(key, iv8) from byte position q*2^38+p (q < 2^32), in any chunks, gives what ChaCha20(key, le32(q) || iv8) gives from position p, for every message that ends within ChaCha20's limit. XChaCha(key, iv24) answers every history of calls as ChaCha(hchacha(key, iv[..16]), 0000 || iv[16..]) does, and messages from position 0 as ChaCha20Legacy(hchacha(key, iv[..16]), iv[16..]); XSalsa likewise as Salsa under hsalsa. At the end of XChaCha's keystream the legacy cipher goes on where XChaCha refuses.", "quantifier": "every key, nonce, round count, build, CPU, position, chunking; for XChaCha/XSalsa every history of calls", "why_tests_cant": "The overlap at counters of 2^32 and above lies beyond 256 GiB of keystream, and the equality quantifies over all keys, nonces, positions and histories.", "anchors": ["chacha20/src/legacy.rs", "chacha20/src/lib.rs:198-231", "chacha20/src/variants.rs", "chacha20/src/xchacha.rs:55-93", "salsa20/src/xsalsa.rs:40-76"]}
{"id": "C64", "title": "Ciphertexts are malleable exactly by XOR, and keystream reuse reveals exactly the XOR of the messages", "statement": "For every cipher of the repository, flipping bits d of the message given to one apply_keystream call, after any history and before any other, flips exactly d in its output and changes no other answer. Two messages of equal length applied at the same position under the same key and nonce, in any two builds and after any two histories, have outputs whose XOR is the XOR of the messages; the XOR of one message and its output is what write_keystream returns there.", "quantifier": "every cipher, key, nonce, build, history before and after, message and difference", "why_tests_cant": "It relates pairs of runs over unbounded histories and two builds.", "anchors": ["chacha20/src/lib.rs", "salsa20/src/lib.rs", "rabbit/src/lib.rs", "hc-256/src/lib.rs", "rc4/src/lib.rs:83-101"]}
{"id": "C65", "title": "Keystreams are purely periodic: every generator returns to its initial state", "statement": "From every valid state, RC4 returns to that state after some positive multiple of 256 (at most 256^258) bytes and HC-256 after some positive multiple of 2048 words; the RC4 keystream of every key is therefore purely periodic. A ChaCha core (any state, backend, number of blocks) is back in its initial state after k blocks iff 2^32 (Ietf) or 2^64 (Legacy) divides k, and a Salsa core without overflow checks iff 2^64 does.", "quantifier": "every valid state, key, build and number of blocks", "why_tests_cant": "The periods are astronomically long; the RC4 and HC-256 cases need injectivity of the update plus a counting argument over all states.", "anchors": ["rc4/src/lib.rs:35-44", "hc-256/src/lib.rs:163-190", "chacha20/src/lib.rs:218-304", "salsa20/src/lib.rs:120-144"]}
{"id": "C66", "title": "Construction from slices accepts exactly the declared lengths, and then never panics; blocks have the declared size", "statement": "new_from_slices / new_from_slice of every public cipher type return InvalidLength exactly when the key or IV length is not the declared one (for RC4: not 1 to 256), and otherwise construct the cipher of C13-C20 without panicking; ChaCha's constructor panics on every other IV length; k blocks of a core are exactly k times the declared block size; Rc4::new never reaches its expect.", "quantifier": "every type, every key and IV of every length, every history of calls after construction", "why_tests_cant": "All lengths and contents of the slices; the sizes are type-level constants spread over six crates.", "anchors": ["chacha20/src/chacha.rs:26-39", "chacha20/src/legacy.rs:19-33", "chacha20/src/xchacha.rs:44-67", "salsa20/src/lib.rs:76-86", "salsa20/src/xsalsa.rs:30-40", "rabbit/src/lib.rs:219-275", "hc-256/src/lib.rs:47-57", "rc4/src/lib.rs:47-81"]}
{"id": "C67", "title": "Rabbit IV setup on a key-only core: the RFC's stream from a fresh core, a shifted one from a used core", "statement": "RabbitCore::inner_iv_init applied to a RabbitKeyOnlyCore that has produced k blocks never panics and gives RFC 4503's IV setup applied to the key-setup state advanced k times; for k = 0 that is the RFC's (key, IV) keystream, and there are keys, IVs and k = 1 for which it is not.", "quantifier": "every key, IV, number of blocks before and after, with and without overflow checks", "why_tests_cant": "The tests only use fresh cores; the claim quantifies over every key, IV and prior use.", "anchors": ["rabbit/src/lib.rs:257-271", "rabbit/src/lib.rs:99-121"]}
{"id": "C68", "title": "Rotational symmetry of the core functions, and its absence from cipher states", "statement": "For every 16-word state, every number of rounds and every j: rotating the four columns of the state by j rotates the columns of ChaCha's output block by j (rounds and feed-forward); shifting the state along the diagonals by j shifts Salsa's output block, which callers of SalsaCore::from_raw_state observe. A raw state equal to its own shift therefore produces a block with at most four different words, and the all-zero raw state produces zeros. No two states built by the ciphers' constructors (any variants, keys, nonces, positions) are related by such a rotation, because the four constants differ.", "quantifier": "all 16-word states, round counts, rotations, both build profiles; all pairs of keys, nonces and positions for the exclusion", "why_tests_cant": "A relation between the outputs of every pair of related 512-bit states, and its absence for every pair of keys and nonces.", "anchors": ["chacha20/src/lib.rs:47", "chacha20/src/lib.rs:139-190", "chacha20/src/backends/soft.rs:66-87", "salsa20/src/backends/soft.rs:22-33", "salsa20/src/backends/soft.rs:49-70", "salsa20/src/lib.rs:68-73"]}
{"id": "C69", "title": "The repository's own test suite holds of the model, in every build", "statement": "Every vector and assertion of the repository's tests holds of the model: chacha20 (kats.rs, xchacha and legacy modules, blobby files, hchacha20 unit test, the RNG tests of tests/rng.rs and the serialized state), salsa20 (mod.rs including the big-offset and raw-state regression tests, all 412 ecrypt vectors), rabbit, hc-256 and rc4 (RFC 6229 at all offsets). The tests that cut a message are proved for every cut, the #[ignore]d offset tests for all positions, the seek macro for every key, nonce and seekable type, the serde and trait-object tests for every seed and every history of calls.", "quantifier": "all target configurations, detected CPU features, usize widths and overflow-check settings; all cuts of the messages; all offsets of the offset tests; all seeds and histories of the round-trip tests", "why_tests_cant": "The test suite runs in one build on one CPU and takes the cuts it lists; the offset tests are ignored by default because of their running time.", "anchors": ["chacha20/tests/kats.rs:1-236", "chacha20/tests/rng.rs:1-552", "chacha20/src/xchacha.rs:155-179", "salsa20/tests/mod.rs:1-234", "salsa20/tests/ecrypt.rs:1-29", "rabbit/tests/mod.rs:1-85", "hc-256/tests/mod.rs:1-78", "rc4/tests/lib.rs:1-401"]}
{"id": "C70", "title": "The block-level interface is a block counter over the same keystream, without a guard", "statement": "Every history of calls on a core type (remaining_blocks, write_keystream_block(s), apply_keystream_block(s), get_block_pos, set_block_pos, and finally try_apply_keystream_partial) behaves as a machine whose only state is an unbounded block number b: output is the specified keystream from block b, the position reported is b modulo the number of counter values, remaining_blocks is what is left to the last counter value (None when it exceeds usize or there is no counter). A consuming call on a new core answers exactly as try_apply_keystream on a new cipher and never panics. A cipher made from a used core (from_core) continues at that core's block, for every later history of byte-level calls. One-block and many-block requests give the same bytes. Nothing else guards the end: at the last counter value remaining_blocks is 0 and further blocks are produced, repeating block 0; Salsa with overflow checks panics exactly when a request would reach the end of the counter.", "quantifier": "all core types, keys, nonces, round counts, histories of calls with type-correct arguments, backends and CPU features, usize widths, overflow-check settings", "why_tests_cant": "The tests use only the wrapped ciphers; the end of the counter is 2^32 or 2^64 blocks away and the backends differ per machine.", "anchors": ["chacha20/src/lib.rs:118-127", "chacha20/src/lib.rs:218-304", "chacha20/src/xchacha.rs:40-93", "salsa20/src/lib.rs:56-131", "salsa20/src/xsalsa.rs:28-95", "rabbit/src/lib.rs:215-290", "hc-256/src/lib.rs:40-119"]}
{"id": "C71", "title": "Each defect found has a small repair under which the property holds in full", "statement": "For the code with the following changes, and no others, the properties that the code violates hold without exception. (a) rng.rs:255 with wrapping_sub: in every build a generator's history answers exactly as the position machine, equal generators and restored generators have equal futures. (b) ChaChaCore::from_seed taking a nonce of the variant's length and generate using the portable code when the counter is 32 bits wide: from_seed never panics, and all backends produce the same words. (c) the cipher crate's try_seek refusing positions past the usable limit: every history of calls of every seekable cipher answers as a tape of keystream bytes, in every build, and no granted request ends past the last byte of the tape; with the typed interface, for every SeekNum type. (d) the Salsa counter advanced with wrapping_add: every raw state yields its Salsa block in every build. (e) feature zeroize enabling cipher/zeroize: every dropped cipher leaves zeros. (f) a shuffle in place of _mm_extract_epi32: same results and every executed instruction exists on the machine. (g) the cfg condition of lib.rs:169 requiring both avx512 flags: a build is accepted exactly if the target features of the forced backend are enabled. (h) NEON storing row 3 as words and converting the generator's words from little endian: correct on both byte orders.", "quantifier": "all keys, nonces, seeds, states, histories, backends, CPU features, build configurations, usize widths, overflow-check settings, both byte orders", "why_tests_cant": "That a change removes a defect everywhere and breaks nothing else is a statement about all inputs, builds and machines at once.", "anchors": ["chacha20/src/rng.rs:32-91", "chacha20/src/rng.rs:239-256", "salsa20/src/backends/soft.rs:20-29", "chacha20/Cargo.toml:26-27", "chacha20/src/backends/sse2.rs:45-60", "chacha20/src/backends/sse2.rs:124-140", "chacha20/src/lib.rs:160-196", "chacha20/src/backends/neon.rs:70-115"]}
{"id": "C72", "title": "The Salsa rounds do nothing to chessboard states, which no cipher reaches", "statement": "A Salsa quarter round leaves four words unchanged exactly if they are a, -a, a, -a modulo 2^32. A raw state filled like a chessboard with a and -a goes through any number of rounds unchanged, so SalsaCore::from_raw_state followed by one block returns exactly twice the state, in every build, without panic. No key, nonce and block position of Salsa20 gives a chessboard state.", "quantifier": "all 32-bit words, round counts, overflow-check settings, keys, nonces, block positions", "why_tests_cant": "There are 2^32 such states in a space of 2^512, and absence from all cipher states is a statement about all keys and nonces.", "anchors": ["salsa20/src/backends/soft.rs:20-70", "salsa20/src/lib.rs:82-110"]}
{"id": "C73", "title": "Rabbit states merge: almost every state has a twin with the same future, and some have no past", "statement": "For every Rabbit state except those with counters 0 and no carry or counters 2^256-1 and carry, there is a different state (the carry bit moved into or out of the counters) with the same successor and hence the same keystream from the first block on. In every lane, whatever the counters, the g-function takes equal values for a 16-bit sum and the same sum shifted by 16 bits, so states that differ in a single state variable merge. Consequently some well-formed states are not the successor of any state: they never recur.", "quantifier": "all well-formed Rabbit states, lanes, 16-bit values, overflow-check settings", "why_tests_cant": "It concerns preimages in a space of 2^513 states; running the cipher forward cannot exhibit them.", "anchors": ["rabbit/src/lib.rs:123-162"]}
{"id": "C74", "title": "Timing of the generators: only positions and arguments show - except through ==, which gives the seed away", "statement": "Under a leakage model of branches and addresses, any history of calls of a ChaCha generator's public interface (drawing, seeking, reading positions, stream and seed, serializing) leaks the same for any two generators at the same place (buffer index and counter), whatever their seeds, stream numbers and buffered words, on every backend, with and without overflow checks, and one panics exactly if the other does; stream numbers passed in do not show either. Making a generator from a seed shows nothing of it, and restoring one shows only the position. The same for == requires a memory comparison that shows only its result; it then shows whether the seeds, and the streams, agree. FINDING: == compares the two seeds with the ordinary array comparison (rng.rs:176-182). With a comparison that stops at the first difference, timing comparisons with generators made from chosen seeds recovers the whole 32-byte seed of any generator with at most 8192 comparisons.", "quantifier": "all generators of 16 words of core and 64 of buffer, histories, backends, CPU features, round counts, overflow-check settings, seeds, serialized states", "why_tests_cant": "Tests compare results, not traces; equality of traces is a statement about all pairs of seeds and histories.", "anchors": ["chacha20/src/rng.rs:48-91", "chacha20/src/rng.rs:140-182", "chacha20/src/rng.rs:202-337"]}
{"id": "C75", "title": "One key for ChaCha20 and XChaCha20 (or Salsa20 and XSalsa20, or a generator's seed): one known block gives away the subkey", "statement": "Let 64 known bytes be encrypted with ChaCha20, ChaCha20Legacy or Salsa20 starting at a block, or 64 bytes be drawn from a ChaCha generator at a block. From message, ciphertext, block number and nonce (or stream number) alone - the key is not an argument - one computes a 32-byte key such that every history of calls of XChaCha20 (XSalsa20) under the same key (the generator's seed) and a 24-byte nonce whose first 16 bytes are that block number and nonce, as the cipher places them, gives exactly the answers of plain ChaCha20 (Salsa20) under the computed key.", "quantifier": "all keys, 16-byte inputs, nonce tails, messages, round counts, environments (backend, CPU, overflow checks, pointer width) and histories of calls", "why_tests_cant": "It relates two different cipher types under all keys; it is a fact about which secrets the interface lets out, not about any single output.", "anchors": ["chacha20/src/xchacha.rs:55-70", "chacha20/src/xchacha.rs:113-153", "salsa20/src/xsalsa.rs:40-70", "salsa20/src/xsalsa.rs:80-139", "chacha20/src/rng.rs:140-170"]}
{"id": "C76", "title": "RC4 states and keys: every state has a computable 256-byte key, most 256-byte keys have a twin, and a state found later unlocks the whole stream", "statement": "For every permutation of 0..255 a simple algorithm (bring each value to its place) gives a 256-byte key whose schedule produces exactly that permutation: the key schedule reaches every permutation. The computed keys are exactly those whose schedule never looks back (index j of step i is at least i); among these the state determines the key. Hence every other 256-byte key - for example 256 zero bytes - has a different key of the same length with the same state and keystream. Given the state after n bytes of any key's stream, rewinding it n steps and applying the algorithm gives a key with the same whole stream, the bytes before included.", "quantifier": "all permutations of 0..255, keys of the accepted lengths, numbers of bytes produced", "why_tests_cant": "The statement quantifies over 256! states and 2^2048 keys; random tests never meet two keys with one state.", "anchors": ["rc4/src/lib.rs:35-44", "rc4/src/lib.rs:58-76"]}
{"id": "C77", "title": "Used through their public interface, the ChaCha, Salsa and Rabbit types branch and touch memory according to lengths and positions only", "statement": "Take any two keys and IVs of one type (ChaCha of either variant, XChaCha, Salsa, XSalsa, Rabbit with or without IV), and two histories of calls (apply in place or buffer to buffer, write keystream, seek, ask for the position) that agree in lengths, positions and order but not in data. From construction to the last call the two runs take the same branches and touch the same addresses, on every backend and build configuration; if one panics (Salsa, overflow checks) the other does at the same point; and the answers agree in kind, length and position.", "quantifier": "all keys, IVs, data, call histories, configurations, CPUs and round counts", "why_tests_cant": "Timing tests sample a few inputs and measure with noise; the claim compares all pairs of secrets over all call histories.", "anchors": ["chacha20/src/lib.rs:218-304", "chacha20/src/xchacha.rs:57-93", "salsa20/src/lib.rs:97-144", "salsa20/src/xsalsa.rs:43-76", "rabbit/src/lib.rs:226-290"]}
{"id": "C78", "title": "An HC-256 state gives up the key, the IV and all earlier states, and most states belong to no key", "statement": "There is an explicit procedure that takes an HC-256 state, n words after construction, to the key and the IV it was constructed from; one that takes any valid state back any number of words; hence a test that decides exactly whether a state is the state of some key and IV after n words; and for every n there are valid states that are not.", "quantifier": "all keys, IVs, numbers of words, valid states, targets and overflow-check settings", "why_tests_cant": "Recovering a few keys from a few states shows nothing about all of them, and the unreachable states are a claim about all 2^512 inputs.", "anchors": ["hc-256/src/lib.rs:59-111", "hc-256/src/lib.rs:163-217"]}
{"id": "C79", "title": "RC4 keys that begin with known bytes are open to the Fluhrer-Mantin-Shamir attack", "statement": "Let the first n bytes of an RC4 key be known and leave the key schedule resolved (n >= 2, S[1] < n, S[1] + S[S[1]] = n, all computed from the known bytes). If the rest of the schedule does not move the entries 1 and S[1], nor n once set, then one ciphertext byte with its plaintext byte determines key byte n by an explicit formula in the known bytes. The WEP-style prefixes (3, 255, x) are resolved for every secret and every x other than 251 and 252.", "quantifier": "all keys of at most 256 bytes, all n, all plaintexts, all x", "why_tests_cant": "The formula holds for some keys and fails for others; a test cannot say for which, the theorem gives the exact condition used and covers all keys that meet it.", "anchors": ["rc4/src/lib.rs:35-44", "rc4/src/lib.rs:58-76", "rc4/src/lib.rs:90-95"]}
{"id": "C80", "title": "Programs with many generators: each one is a position in the table of its own seed, also when drawn from another, saved and restored, or compared", "statement": "Take any program that creates generators of the three types from seeds, from each other (from_rng), and from saved states (of any type), calls them in any order, and compares them, each call in its own build and on its own CPU. The answers are those of a family of independent positions: a generator made by from_rng has as seed the parent's next eight words, starts at stream 0, word 0, and moves the parent by eight words; a restored one stands where the saved one stood; == tells exactly whether seed, stream and position agree; no call changes another generator. The answers do not depend on builds or CPUs.", "quantifier": "all programs, seeds, numbers of generators, round counts, builds and CPUs (get_block_pos only without overflow checks, see C26)", "why_tests_cant": "The repository tests one from_rng call; the space of programs over several interacting generators cannot be enumerated.", "anchors": ["chacha20/src/rng.rs:103-337", "chacha20/tests/rng.rs:183-193"]}
{"id": "C81", "title": "The authenticated-encryption protocols get their one-time key and message keystream from the obvious calls", "statement": "In every environment, encrypting 32 zero bytes, seeking to byte 64 and encrypting a message with ChaCha20 or XChaCha20 answers exactly the one-time Poly1305 key of RFC 8439 section 2.6 and the ciphertext of section 2.4 with initial counter 1, for messages of up to 2^32 - 2 blocks; the receiver's same calls on the ciphertext give back key and message. XSalsa20 on 32 zero bytes and then the message computes NaCl's secretbox. A message that needs the block counter 2^32 - 1, which RFC 8439 section 2.8 still allows, is refused with an error and left untouched.", "quantifier": "all keys, nonces, messages, round counts, builds, CPUs and word sizes", "why_tests_cant": "The repository does not test the protocols, and the limit is reached only by a message of 274 GB.", "anchors": ["chacha20/README.md:32-33", "chacha20/src/lib.rs:230-330", "chacha20/src/xchacha.rs:1-179", "salsa20/src/xsalsa.rs:1-120", "chacha20/src/variants.rs:1-84"]}
{"id": "C82", "title": "The complete list of panics", "statement": "For every public type and every history of calls it is known exactly which calls panic. The try_ methods of the seekable ciphers panic only when given a position from -63 to -1 and, for Salsa and XSalsa with overflow checks, a position inside the last block; those of the other ciphers never. The unwrapping methods (apply_keystream, write_keystream, seek, current_pos) answer as the try_ methods and panic in place of their first error; encrypting with apply_keystream alone panics exactly when the pieces together exceed the keystream. The block-level calls panic only on a Salsa core with overflow checks that generates the last block; the generators only in get_block_pos with overflow checks, exactly under the condition of C26; construction from slices never; ChaChaCore::from_seed exactly for the Ietf variant.", "quantifier": "all types, keys, nonces, histories of calls, positions, integer types, builds, CPUs and word sizes", "why_tests_cant": "That no other panic exists is a statement about all histories; most of the panics need positions near the end of the keystream.", "anchors": ["chacha20/src/lib.rs:130-343", "chacha20/src/rng.rs:103-337", "salsa20/src/lib.rs:68-154", "salsa20/src/backends/soft.rs:15-40", "rabbit/src/lib.rs:60-309", "hc-256/src/lib.rs:47-218", "rc4/src/lib.rs:30-116"]}
{"id": "C83", "title": "Secrets in the constructors' local variables", "statement": "With the zeroize features on, making a cipher leaves nothing that depends on the key in the local arrays of the functions that ran. This holds for the ChaCha, Salsa and RC4 constructors. It is false for the others: hchacha and hsalsa leave their working state, from which the long-term key is computed by running the rounds backwards; XChaCha and XSalsa also leave the derived subkey, which alone gives the whole keystream; Rabbit leaves the copied key and its 16-bit words; HC-256 leaves the expanded array, which starts with the key. This is so although the memory of the dropped cipher itself is all zeros. The portable block functions leave exactly the block they hand out. The generators' from_seed, serialize_state and == leave whole seeds; deserialize_state leaves only the position.", "quantifier": "all cipher types, keys, nonces, round counts, builds, features and call histories; all generators", "why_tests_cant": "What is left in dead memory is invisible to a test of outputs, and that the key can be recovered for every key is a universal statement.", "anchors": ["chacha20/src/xchacha.rs:57-153", "chacha20/src/lib.rs:138-191", "chacha20/src/backends/soft.rs:33-45", "chacha20/src/rng.rs:142-147", "chacha20/src/rng.rs:176-182", "chacha20/src/rng.rs:282-337", "salsa20/src/xsalsa.rs:44-139", "salsa20/src/lib.rs:89-114", "rabbit/src/lib.rs:60-121", "hc-256/src/lib.rs:60-108", "rc4/src/lib.rs:57-77"]}
{"id": "C84", "title": "What the answers tell about the messages", "statement": "Take two call histories of the same shape (same calls, same message lengths, same seek targets) on a cipher of any type. The answers of the first are possible answers of the second, for some keystream with the period of the block counter, exactly when the two histories agree on the XOR of the message bytes at every keystream spot that was used more than once. When they agree, one self-inverse map on keystreams carries the answers of the first history to those of the second for every keystream, so the answers are equally likely under both. Without seeking this is always so: beyond its keystream the code tells nothing but the lengths of the messages.", "quantifier": "all cipher types, keys, nonces, environments, call histories and messages; all keystreams of the type's period", "why_tests_cant": "It quantifies over all pairs of message histories and over all keystreams, not only those of the cipher.", "anchors": ["chacha20/src/lib.rs:218-281", "salsa20/src/lib.rs:120-144", "rabbit/src/lib.rs:235-309", "hc-256/src/lib.rs:111-218", "rc4/src/lib.rs:83-101"]}
{"id": "C85", "title": "scrypt on the raw-state Salsa core", "statement": "SalsaCore::from_raw_state with four double rounds and one keystream block is the Salsa20/8 function of scrypt. A caller that uses it the way the scrypt crate does computes scryptBlockMix and scryptROMix of RFC 7914 for every block-size parameter, every cost parameter 2^k up to 2^32 and every input. In builds without overflow checks this is so always. In builds with overflow checks the caller panics exactly when some input of the core has bytes 32 to 39 all ones, and such inputs exist for all parameters.", "quantifier": "all block-size parameters r >= 1, cost parameters 2^k with k <= 32, input buffers, and both build profiles", "why_tests_cant": "The panic needs two particular words of a hash-like intermediate value to be all ones, which no random test meets.", "anchors": ["salsa20/src/lib.rs:63-74", "salsa20/src/lib.rs:120-129", "salsa20/src/backends/soft.rs:1-70"]}
{"id": "C86", "title": "Cursor packed into the buffer", "statement": "The wrapper keeps its read cursor in the first byte of the block it buffers and the generators keep their index in the first word of their results; the cursor is trusted by unsafe code. For every cipher type and every history of calls the packed wrapper gives exactly the answers and panics of the model with a separate cursor, leaves in memory exactly the block the drop model says, and never has a cursor outside 1..=block size (undefined behaviour). The same for every history of a generator, seeded or restored. With blocks of 256 bytes it would be false.", "quantifier": "all cipher types, keys, nonces, builds, generators, serialized states and call histories", "why_tests_cant": "A cursor out of range is undefined behaviour, which need not show; a byte of keystream overwritten by the cursor before it is read shows only for particular splits of the output.", "anchors": ["chacha20/src/chacha.rs:16-22", "chacha20/src/lib.rs:302-304", "rabbit/src/lib.rs:42-47", "hc-256/src/lib.rs:38-49", "salsa20/src/lib.rs:30-38", "chacha20/src/rng.rs:133-165", "chacha20/src/rng.rs:202-337"]}
{"id": "C87", "title": "Use after a caught panic", "statement": "When panics are caught and the object is used again, nothing is undefined and every further answer is predictable: a cipher that panicked by unwrapping an error stands where it stood; a Salsa cipher that panicked while seeking into its last block (overflow checks) stands at the start of that block; a generator whose get_block_pos panicked is unchanged. No other call panics. This needs salsa20 to move the counter before it writes the block: in the other order the buffer's cursor would be a keystream byte and the next call undefined behaviour.", "quantifier": "all cipher types, keys, nonces, builds and histories of caught calls in unwrapping and try_ form; all reachable generators and their histories", "why_tests_cant": "Tests stop at a panic; undefined behaviour after one depends on a keystream byte and need not show.", "anchors": ["salsa20/src/backends/soft.rs:21-30", "salsa20/src/lib.rs:133-144", "chacha20/src/rng.rs:251-259", "chacha20/src/lib.rs:286-304"]}
{"id": "C88", "title": "Buffers in memory, in place or from one to another", "statement": "Working on buffers in one memory - in place, from one buffer to a disjoint one, or filling a buffer with keystream - every cipher leaves exactly the memory that the position machine prescribes: byte d of the output buffer is byte d of the input buffer as it was before the call XOR keystream byte p+d, every other byte is untouched, a refused call changes nothing; how the backend cuts its output into pieces does not matter. Overlapping buffers, which the borrow checker excludes, would be processed wrongly.", "quantifier": "all cipher types, keys, nonces, backends, builds, memories, histories of calls on buffers at any offsets and lengths, and all ways of cutting the keystream into pieces", "why_tests_cant": "In-place processing reads input after earlier output has been written; tests cover few offsets, lengths and parallel widths.", "anchors": ["rc4/src/lib.rs:89-100", "chacha20/src/lib.rs:239-297", "salsa20/src/lib.rs:126-130", "hc-256/src/lib.rs:117-119", "rabbit/src/lib.rs:244-246"]}
{"id": "C89", "title": "Shared feature detection, and backends that change in mid-stream", "statement": "However threads that create and use ChaCha ciphers interleave, a token's get() after its init() has returned reports what some CPU said about the feature, and on a machine with one kind of CPU always the same; without the token it could be wrong. And if the answer does change - every call of process_with_backend taking another backend, even within one operation of the user - no answer of a cipher changes.", "quantifier": "all numbers of threads, programs, schedules and detection results; all sequences of backend choices, ChaCha and XChaCha types, keys, nonces and histories", "why_tests_cant": "Races for the first detection and machines with unlike CPUs (or migrated processes) do not occur in tests.", "anchors": ["chacha20/src/lib.rs:103-110", "chacha20/src/lib.rs:164-184", "chacha20/src/lib.rs:239-297", "chacha20/src/rng.rs:62-80"]}
{"id": "C90", "title": "What continuous integration builds and runs, and the builds of the other four crates", "statement": "salsa20, rabbit, hc-256 and rc4 compile with and without zeroize, and promise ZeroizeOnDrop exactly with it, never without a destructor. Every build that the repository's workflows perform is accepted by the rules of conditional compilation; every backend of the ChaCha ciphers and of the generators is run by some test job on every machine it can meet. The jobs never build the combination that does not compile (C58), never run wrapping arithmetic, NEON in big-endian order, 32-bit AVX-512 or a machine without SSE4.1 (C52, C62), and run the other four crates on one target only. The benchmarks' loops stay within the keystream for exactly floor((2^38-64)/size) turns.", "quantifier": "all features, targets and flags for the four crates; all steps of the workflows and feature sets of each; all machines; all numbers of turns", "why_tests_cant": "Which configurations the tests leave out is not something the tests can tell.", "anchors": [".github/workflows/chacha20.yml:20-240", ".github/workflows/salsa20.yml:20-59", "salsa20/src/lib.rs:20-26", "salsa20/src/lib.rs:146-154", "rabbit/src/lib.rs:205-309", "hc-256/src/lib.rs:191-201", "rc4/src/lib.rs:103-116", "Cargo.toml:1-12", "benches/src/chacha20.rs:11-28", "chacha20/benches/mod.rs:5-27"]}
{"id": "C91", "title": "How many blocks a history of calls makes a cipher compute", "statement": "Whatever calls a user makes of a ChaCha, XChaCha, Salsa, XSalsa, Rabbit or HC-256 cipher, the blocks its core computes are exactly those that follow from the positions: left-over bytes first, whole blocks in one call, one block for a partial end, one for a seek into a block. Refused calls, queries and seeks to a block's start compute nothing. Every byte computed is handed out, still buffered, or thrown away by a seek; a message costs ceil(length/block) blocks however it is cut, and no history costs more than its bytes plus one block at the end and two for each seek. The vector backends compute for k blocks 4(k div 4)+4(k mod 4) (SSE2, AVX2), 8(k div 8)+8(k mod 8) (NEON), fewer than k+8 (AVX-512).", "quantifier": "all ciphers with blocks, environments, histories of calls of any length", "why_tests_cant": "Tests compare outputs; a block computed twice or for a refused call leaves them unchanged.", "anchors": ["chacha20/src/lib.rs:233-304", "chacha20/src/backends/sse2.rs:76-112", "chacha20/src/backends/avx2.rs:133-183", "chacha20/src/backends/neon.rs:132-143", "chacha20/src/backends/avx512.rs:292-339", "salsa20/src/lib.rs:120-144", "rabbit/src/lib.rs:277-290", "hc-256/src/lib.rs:111-120"]}
{"id": "C92", "title": "What the documentation promises", "statement": "The sentences of chacha20's README and doc comments that make a checkable promise hold of the code: at most 256 GiB can be encrypted; new_internal panics exactly for nonces not of 4, 8 or 12 bytes; each chacha20_backend value forces its backend on x86 given the named target feature, is ignored elsewhere, and AVX-512 is autodetected only under chacha20_avx512; XChaCha, legacy and generator types exist exactly under their features; a generator starts at zero, cycles after exactly 1 ZiB, reports a 68-bit word offset which times four is the byte offset, forgets positions on set_stream, keeps its streams apart, and a leaked serialised state gives everything away.", "quantifier": "all ciphers, keys, nonces, chunkings, build configurations, CPUs, reachable generators", "why_tests_cant": "Nobody encrypts 256 GiB or draws 1 ZiB in a test, a test runs in one build, and nothing compares prose with code.", "anchors": ["chacha20/README.md:16-22", "chacha20/README.md:88-101", "chacha20/src/lib.rs:135-140", "chacha20/src/rng.rs:104-115", "chacha20/src/rng.rs:194-266", "chacha20/src/rng.rs:291-295", "chacha20/src/variants.rs:56-60"]}
{"id": "C93", "title": "Further protocols: QUIC header protection, OpenSSH, secretstream, Adiantum, arcfour, and session nonces", "statement": "The obvious calls compute what the protocols define: a seek to 64 times the sampled counter and five zero bytes give the QUIC header-protection mask of RFC 9001 section 5.4.4 for every 16-byte sample; ChaCha20Legacy under two keys with the sequence number as nonce gives OpenSSH's encrypted length, one-time key and payload; hchacha and ChaCha20 give libsodium's secretstream messages and rekeying; XChaCha12 gives Adiantum's stream; Rc4 gives RFC 4345's arcfour after 1536 discarded bytes, any number of packets continuing one keystream. Under one key, the nonces of WireGuard, TLS 1.3 and SSH put different packets in different core states at all positions, as do different QUIC samples.", "quantifier": "all keys, samples, sequence numbers, headers, messages and their lengths, round numbers, environments", "why_tests_cant": "Only one in 2^32 samples is answered wrongly, and whether two packets share a block input is a statement about all pairs.", "anchors": ["chacha20/README.md:24-33", "chacha20/src/lib.rs:190-238", "chacha20/src/legacy.rs:1-32", "chacha20/src/xchacha.rs:30-118", "rc4/src/lib.rs:56-116"]}
{"id": "C94", "title": "The source text itself, parsed and executed, computes the specified keystreams (ChaCha, XChaCha, Salsa, XSalsa, Rabbit)", "statement": "The text of the portable code, copied from the repository into Coq strings, is accepted by a parser for the part of Rust it uses, and run by an evaluator of that language it gives exactly: for ChaChaCore of both variants and any number of double rounds, new_internal, set_block_pos and any number of gen_ks_block calls, the blocks of RFC 8439 or of the original ChaCha from that position on; for XChaChaCore those of XChaCha; for SalsaCore and XSalsaCore those of Salsa20 and XSalsa20, or a panic precisely when overflow checks are on and the counter would pass 2^64; for Rabbit with and without an IV those of RFC 4503. get_block_pos, remaining_blocks, the generator's four blocks, hchacha and hsalsa in the text compute the model's functions.", "quantifier": "all keys, nonces, positions, block counts and round numbers, with and without overflow checks, pointer widths 16, 32 and 64", "why_tests_cant": "The model is written by hand; that it says what the source says cannot be tested without running both, for all inputs. Here the source text is the subject of the theorem, so a transcription error in the model would show.", "anchors": ["chacha20/src/lib.rs:118-237", "chacha20/src/backends/soft.rs:30-87", "chacha20/src/variants.rs:36-84", "chacha20/src/xchacha.rs:56-153", "salsa20/src/lib.rs:88-144", "salsa20/src/backends/soft.rs:20-70", "salsa20/src/xsalsa.rs:42-139", "rabbit/src/lib.rs:49-306"]}
{"id": "C95", "title": "The source text of the RC4 and HC-256 crates, parsed and executed, computes the specified keystreams", "statement": "The text of rc4/src/lib.rs, run by the evaluator of C94: new_from_slice accepts exactly the keys of 1 to 256 bytes; afterwards any sequence of unchecked_write_keystream and unchecked_apply_keystream_inout calls, of any lengths, gives the consecutive stretches of RC4's keystream, alone or xored onto the input, never panics and leaves the input as it was; new gives the state new_from_slice gives, and check_remaining always succeeds. The text of hc-256/src/lib.rs, run likewise: new (expansion to 2660 words, two tables, 4096 warm-up steps) followed by any number of gen_ks_block calls gives the words of the HC-256 specification, without a panic.", "quantifier": "all keys and nonces, all sequences of calls, with and without overflow checks, pointer widths 16, 32 and 64", "why_tests_cant": "The two crates index tables by secret data and mix wrapping and checked arithmetic on usize; that no index leaves its table and no checked operation overflows for any key, nonce, position and pointer width is a statement about the text that no set of vectors reaches.", "anchors": ["rc4/src/lib.rs:16-45", "rc4/src/lib.rs:51-77", "rc4/src/lib.rs:83-101", "hc-256/src/lib.rs:23-29", "hc-256/src/lib.rs:59-109", "hc-256/src/lib.rs:134-189", "hc-256/src/lib.rs:213-218"]}
{"id": "C96", "title": "The source text of the ChaCha generators' methods, parsed and executed, answers as the specified position in a stream", "statement": "The text of the macro impl_chacha_rng (rng.rs), expanded, parsed and run by the evaluator of C94 over rand_core's BlockRng (contract) and the text of the portable refill: from_seed, then any sequence of try_next_u32, try_next_u64, try_fill_bytes (over whatever the buffer held), get_word_pos, set_word_pos, get_block_pos, set_block_pos, get_stream, set_stream, get_seed and serialize_state gives the answers of a position in one of the 2^64 streams of 2^68 words of djb's ChaCha. With overflow checks it panics exactly at a get_block_pos whose buffer straddles the end of the stream (the finding of C26, here for the text itself), and never otherwise; without them it never panics. The macro's three expansions are the same functions.", "quantifier": "all seeds, all histories of these calls with all arguments, with and without overflow checks, pointer widths 16, 32 and 64, any number of rounds", "why_tests_cant": "Positions range over 2^68 words and 2^64 streams, and an answer depends on the whole history through the buffer; the panic of get_block_pos lies at the end of a stream of 2^70 bytes.", "anchors": ["chacha20/src/rng.rs:133-166", "chacha20/src/rng.rs:193-313", "chacha20/src/rng.rs:342-344", "chacha20/src/backends/soft.rs:51-62"]}
{"id": "C97", "title": "The source text of the ChaCha generators' serialisation and comparison, parsed and executed, is faithful", "statement": "For the text of deserialize_state, serialize_state and eq in rng.rs, run as in C96: a generator restored from any 49 bytes answers every history of calls as the position those bytes encode (seed, stream, word position reduced modulo 2^68), without panicking; eq answers true exactly for two generators, each made from a seed or from bytes and then used in any way, that stand at the same word of the same stream of the same seed; a copy made through serialize_state and deserialize_state at any moment gets the same answers as the original from then on and still compares equal after them.", "quantifier": "all 49-byte arrays, all seeds, all histories of calls before and after, pointer widths 16, 32 and 64, any number of rounds, without overflow checks or (with them) without get_block_pos", "why_tests_cant": "2^392 states, of which most encode a position above 2^68 that no generator serialises; equality must hold for all pairs of histories that meet and fail for all others.", "anchors": ["chacha20/src/rng.rs:176-182", "chacha20/src/rng.rs:297-337"]}
