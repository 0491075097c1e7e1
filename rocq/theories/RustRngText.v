(** The text of the ChaCha generators' methods, copied from the macro of [chacha20/src/rng.rs]; its
    expansion, its parse, and how it is run. *)
From Coq Require Import String Ascii.
From Verif Require Export RustPrograms BlockRng.
From Verif Require Import ChaChaCore ChaChaSoft ChaChaRng RustChaCha RustChaCha2.
Local Open Scope string_scope.
Local Open Scope N_scope.
Local Open Scope list_scope.
(** chacha20/src/rng.rs:138-148, 150-166, 176-182, 193-338; left out: the struct [:133-135], whose
    nested generic type the parser does not read *)
Definition rng_text : string := "
        impl SeedableRng for $Rng {
            type Seed = Seed;

            #[inline]
            fn from_seed(seed: Self::Seed) -> Self {
                let core = ChaChaCore::new_internal(&seed, &[0u8; 8]);
                Self {
                    core: BlockRng::new(core),
                }
            }
        }
        impl TryRng for $Rng {
            type Error = Infallible;

            #[inline]
            fn try_next_u32(&mut self) -> Result<u32, Self::Error> {
                Ok(self.core.next_word())
            }
            #[inline]
            fn try_next_u64(&mut self) -> Result<u64, Self::Error> {
                Ok(self.core.next_u64_from_u32())
            }
            #[inline]
            fn try_fill_bytes(&mut self, dest: &mut [u8]) -> Result<(), Self::Error> {
                self.core.fill_bytes(dest);
                Ok(())
            }
        }
        impl PartialEq<$Rng> for $Rng {
            fn eq(&self, rhs: &$Rng) -> bool {
                (self.get_seed() == rhs.get_seed())
                    && (self.get_stream() == rhs.get_stream())
                    && (self.get_word_pos() == rhs.get_word_pos())
            }
        }
        impl $Rng {
            /// Get the offset from the start of the stream, in 32-bit words.
            ///
            /// Since the generated blocks are 16 words (2<sup>4</sup>) long and the
            /// counter is 64-bits, the offset is a 68-bit number. Sub-word offsets are
            /// not supported, hence the result can simply be multiplied by 4 to get a
            /// byte-offset.
            #[inline]
            #[must_use]
            pub fn get_word_pos(&self) -> u128 {
                let mut block_counter = (u64::from(self.core.core.state[13]) << 32)
                    | u64::from(self.core.core.state[12]);
                if self.core.word_offset() != 0 {
                    block_counter = block_counter.wrapping_sub(u64::from(BUF_BLOCKS));
                }
                let word_pos = u128::from(block_counter) * u128::from(BLOCK_WORDS)
                    + self.core.word_offset() as u128;
                // eliminate bits above the 68th bit
                word_pos & ((1 << 68) - 1)
            }

            /// Set the offset from the start of the stream, in 32-bit words.
            ///
            /// **This value will be erased when calling `set_stream()`,
            /// so call `set_stream()` before calling `set_word_pos()`**
            /// if you intend on using both of them together.
            ///
            /// As with `get_word_pos`, we use a 68-bit number. Since the generator
            /// simply cycles at the end of its period (1 ZiB), we ignore the upper
            /// 60 bits.
            #[inline]
            pub fn set_word_pos(&mut self, word_offset: u128) {
                let index = (word_offset % u128::from(BLOCK_WORDS)) as usize;
                let counter = word_offset / u128::from(BLOCK_WORDS);
                //self.set_block_pos(counter as u64);
                self.core.core.state[12] = counter as u32;
                self.core.core.state[13] = (counter >> 32) as u32;
                self.core.reset_and_skip(index);
            }

            /// Sets the block pos and resets the RNG's index.
            ///
            /// **This value will be erased when calling `set_stream()`,
            /// so call `set_stream()` before calling `set_block_pos()`**
            /// if you intend on using both of them together.
            ///
            /// The word pos will be equal to `block_pos * 16 words per block`.
            #[inline]
            #[allow(unused)]
            pub fn set_block_pos(&mut self, block_pos: u64) {
                self.core.reset_and_skip(0);
                self.core.core.set_block_pos(block_pos);
            }

            /// Get the block pos.
            #[inline]
            #[allow(unused)]
            #[must_use]
            pub fn get_block_pos(&self) -> u64 {
                let counter = self.core.core.get_block_pos();
                let offset = self.core.word_offset();
                if offset != 0 {
                    counter - u64::from(BUF_BLOCKS) + offset as u64 / u64::from(BLOCK_WORDS)
                } else {
                    counter
                }
            }

            /// Set the stream ID and reset the `word_pos` to 0.
            #[inline]
            pub fn set_stream(&mut self, stream: u64) {
                self.core.core.state[14] = stream as u32;
                self.core.core.state[15] = (stream >> 32) as u32;
                self.set_block_pos(0);
            }

            /// Get the stream number (nonce).
            #[inline]
            #[must_use]
            pub fn get_stream(&self) -> u64 {
                let mut result = [0u8; 8];
                result[..4].copy_from_slice(&self.core.core.state[14].to_le_bytes());
                result[4..].copy_from_slice(&self.core.core.state[15].to_le_bytes());
                u64::from_le_bytes(result)
            }

            /// Get the RNG seed.
            #[inline]
            #[must_use]
            pub fn get_seed(&self) -> [u8; 32] {
                let seed = &self.core.core.state[4..12];
                let mut result = [0u8; 32];
                for (src, dst) in seed.iter().zip(result.chunks_exact_mut(4)) {
                    dst.copy_from_slice(&src.to_le_bytes())
                }
                result
            }

            /// Serialize RNG state.
            ///
            /// # Warning
            /// Leaking serialized RNG state to an attacker defeats security properties
            /// provided by the RNG.
            #[inline]
            pub fn serialize_state(&self) -> SerializedRngState {
                let seed = self.get_seed();
                let stream = self.get_stream().to_le_bytes();
                let word_pos = self.get_word_pos().to_le_bytes();

                let mut res = [0u8; 49];
                let (seed_dst, res_rem) = res.split_at_mut(32);
                let (stream_dst, word_pos_dst) = res_rem.split_at_mut(8);

                seed_dst.copy_from_slice(&seed);
                stream_dst.copy_from_slice(&stream);
                word_pos_dst.copy_from_slice(&word_pos[..9]);

                debug_assert_eq!(&word_pos[9..], &[0u8; 7]);

                res
            }

            /// Deserialize RNG state.
            #[inline]
            pub fn deserialize_state(state: &SerializedRngState) -> Self {
                let (seed, state_rem) = state.split_at(32);
                let (stream, word_pos_raw) = state_rem.split_at(8);

                let seed: &[u8; 32] = seed.try_into().expect(""seed.len() is equal to 32"");
                let stream: &[u8; 8] = stream.try_into().expect(""stream.len() is equal to 8"");

                // Note that we use only 68 bits from `word_pos_raw`, i.e. 4 remaining bits
                // get ignored and should be equal to zero in practice.
                let mut word_pos_buf = [0u8; 16];
                word_pos_buf[..9].copy_from_slice(word_pos_raw);
                let word_pos = u128::from_le_bytes(word_pos_buf);

                let core = ChaChaCore::new_internal(seed, stream);
                let mut res = Self {
                    core: BlockRng::new(core),
                };

                res.set_word_pos(word_pos);
                res
            }
        }
".
(** The expansion of the macro [:342-344]: its two parameters are replaced. *)
Fixpoint replace_all (fuel : nat) (x y s : string) : string :=
  match fuel with
  | O => s
  | S f => if prefix x s then y ++ replace_all f x y (substring (String.length x) (String.length s) s)
           else match s with EmptyString => s | String c s => String c (replace_all f x y s) end
  end.
Definition expand_rng (name rounds : string) : string :=
  let s := replace_all (String.length rng_text) "$Rng" name rng_text in
  replace_all (String.length s) "$rounds" rounds s.
Definition rng_items : list item := Eval vm_compute in items_of (expand_rng "ChaCha20Rng" "R20").
Definition rng_fns : list fn := fns rng_items.

(** The methods of [BlockRng] they call: the environment contract of [BlockRng.v] (crate
    [rand_core]); only how they take their arguments is declared here. *)
Definition block_fn (name : string) (self : recv) (ps : list (string * ty)) : fn := Fn "BlockRng" name self ps None (ETup []).
Definition block_fns : list fn :=
  [block_fn "new" NoSelf [("core", TyOther)]; block_fn "word_offset" SelfRef []; block_fn "reset_and_skip" SelfMut [("n", TyPath ["usize"])];
   block_fn "next_word" SelfMut []; block_fn "next_u64_from_u32" SelfMut [];
   block_fn "fill_bytes" SelfMut [("dest", TyRef true (TyArr (TyPath ["u8"])))]].
Definition rng_prog : list fn := rng_fns ++ block_fns ++ chacha_prog.
(** The instance [BlockRng<ChaChaCore<$rounds, Legacy>>] [:133-135]; [n] double rounds. *)
Definition rng_g (ck : bool) (usz : N) (n : N) : genv :=
  genv0 ck usz [("V::Counter", U64); ("Self::Counter", U64); ("Self::Seed", U8)] [("V", "Legacy")] (("ChaCha20Rng", [("core", TyOther)]) :: structs chacha_items)
    (("R::COUNT", VInt Usz n) :: consts usz chacha_items []).

(** A [BlockRng] and a generator as values. *)
Definition block_val (b : brng) : val :=
  VStruct "BlockRng" [("core", core_val (b_core b)); ("results", VArr U32 (b_res b)); ("index", VInt Usz (N.of_nat (b_idx b)))].
Definition rng_val (r : brng) : val := VStruct "ChaCha20Rng" [("core", block_val r)].
Definition core_of (v : val) : option (list N) := match v with VStruct _ ((_, VArr U32 st) :: _) => Some st | _ => None end.
Definition block_of (v : val) : option brng :=
  match v with
  | VStruct _ [(_, c); (_, VArr U32 res); (_, VInt Usz i)] =>
      match core_of c with Some st => Some {| b_core := st; b_res := res; b_idx := N.to_nat i |} | None => None end
  | _ => None
  end.
(** What [Generator::generate] [:49-52] does in the portable build, by the text of [gen_ks_blocks]. *)
Definition text_generate (run : string -> list val -> X (val * list val)) (st : list N) : list N * list N :=
  match run "Backend::gen_ks_blocks" [backend_val st; VArr U32 (repeat 0 64)] with
  | XOk (_, [VStruct _ [(_, c)]; VArr U32 ks]) => match core_of c with Some st' => (ks, st') | None => ([], []) end
  | _ => ([], [])
  end.
Definition with_res (m : Res brng) (k : brng -> X (val * list val)) : X (val * list val) := match m with Ok b => k b | Panic => XPanic end.
Definition block_meth (G : list N -> list N * list N) (k : string) (b : brng) (v : val) (vs : list val) : X (val * list val) :=
  if String.eqb k "BlockRng::word_offset" then XOk (VInt Usz (N.of_nat (word_offset b)), [v])
  else if String.eqb k "BlockRng::reset_and_skip" then
    match vs with [VInt _ n] => with_res (reset_and_skip G b (N.to_nat n)) (fun b => XOk (VUnit, [block_val b; VInt Usz n])) | _ => XStuck end
  else if String.eqb k "BlockRng::next_word" then let (x, b) := next_word G b in XOk (VInt U32 x, [block_val b])
  else if String.eqb k "BlockRng::next_u64_from_u32" then let (x, b) := next_u64 G b in XOk (VInt U64 x, [block_val b])
  else if String.eqb k "BlockRng::fill_bytes" then
    match vs with [VArr U8 dest] => let (l, b) := fill_bytes G b (length dest) in XOk (VUnit, [block_val b; VArr U8 l]) | _ => XStuck end
  else XStuck.
Definition block_call (G : list N -> list N * list N) (k : string) (vs : list val) : X (val * list val) :=
  match vs with
  | [] => XStuck
  | v :: vs =>
      if String.eqb k "BlockRng::new" then match core_of v with Some st => XOk (block_val (b_new st), [v]) | None => XStuck end
      else match block_of v with Some b => block_meth G k b v vs | None => XStuck end
  end.
(** Runs a method of the generator; what it calls is another method, one of [BlockRng], or a
    function of the rest of the crate (run as in [RustChaCha.v]). *)
Fixpoint run_rng (ck : bool) (usz n : N) (d : nat) (k : string) (vs : list val) : X (val * list val) :=
  match d with
  | O => XStuck
  | S d =>
      match find_fn rng_fns k with
      | Some f => run_body (rng_g ck usz n) rng_prog (run_rng ck usz n d) f vs
      | None =>
          let chacha := run_fn (chacha_i ck usz Legacy n) chacha_prog (S (S (S d))) in
          match find_fn block_fns k with Some _ => block_call (text_generate chacha) k vs | None => chacha k vs end
      end
  end.
