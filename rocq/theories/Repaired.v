(** Repairs.  The claims of this development that the code does not meet ([partial] in the
    manifest) fail because of single lines.  Here those lines are changed, one by one, and
    [PropertiesRepaired.v] proves the claims in full of the result: so each exception is due
    to the line named here and to nothing else.

    Each definition names the line and gives the new text; what surrounds it is the model
    of the code as it is. *)
From Coq Require Import String.
From Verif Require Export Word Res.
From Verif Require Import SpecStream SpecRng ChaChaCore ChaChaBackend ChaChaDispatch Simd ChaChaSse2 XChaCha CipherWrapper Ciphers Salsa
  BlockRng ChaChaRng Memory NeonEndian ChaChaNeon Lifecycle SeekNum Isa.
From Verif Require Cfg.
From Coq Require Import ZArith.
Open Scope N_scope.

(** ** [ChaCha*Rng::get_block_pos] (C26, C29, C30) *)
(** [chacha20/src/rng.rs:255]: [counter - u64::from(BUF_BLOCKS) + offset as u64 / u64::from(BLOCK_WORDS)] becomes
    [counter.wrapping_sub(u64::from(BUF_BLOCKS)).wrapping_add(offset as u64 / u64::from(BLOCK_WORDS))]. *)
Definition rng_get_block_pos_r (r : rng) : N :=
  let counter := get_block_pos Legacy (b_core r) in
  let offset := word_offset r in
  if (offset =? 0)%nat then counter
  else ((counter + M64 - BUF_BLOCKS) mod M64 + N.of_nat offset / BLOCK_WORDS) mod M64.
Definition rng_step_r (G : list N -> list N * list N) (ck : bool) (r : rng) (o : rop) : Res (rret * rng) :=
  match o with
  | GetBlockPos => Ok (Num (rng_get_block_pos_r r), r)
  | _ => rng_step G ck r o
  end.
Fixpoint rng_run_r (G : list N -> list N * list N) (ck : bool) (r : rng) (h : list rop) : Res (list rret * rng) :=
  match h with
  | [] => Ok ([], r)
  | o :: h' => do (x, r1) <- rng_step_r G ck r o; do (xs, r2) <- rng_run_r G ck r1 h'; Ok (x :: xs, r2)
  end.

(** ** [SeedableRng] and [Generator] for [ChaChaCore<R, V>] (C31) *)
(** [chacha20/src/rng.rs:40]: the nonce has the variant's length instead of [[0u8; 8]]. *)
Definition core_from_seed_r (v : variant) (seed : list N) : Res (list N) :=
  new_internal v seed (repeat 0 (16 - counter_size v)).
(** [chacha20/src/rng.rs:51-91]: the backends are called with [Legacy] instead of [V]. *)
Definition generate_r (c : config) (p : cpu) (v : variant) (n : nat) (st : list N) : list N * list N :=
  generate c p Legacy n st.

(** ** [StreamCipherSeek::try_seek] (C20) *)
(** In the crate [cipher]: a position inside the last block of the counter's range is
    rejected, as positions after it are. *)
Definition try_seek_r {S} (C : score S) (K : sseek S) (w : wrapper S) (p : N) : Res (option (wrapper S)) :=
  let bs := N.of_nat (sc_bs C) in
  if (p / bs =? sk_mod K - 1) && negb (p mod bs =? 0) then Ok None else try_seek C K w p.
Definition step_r {S} (C : score S) (K : sseek S) (w : wrapper S) (o : op) : Res (ret * wrapper S) :=
  match o with
  | Seek p => do r <- try_seek_r C K w p;
              match r with Some w' => Ok (Done, w') | None => Ok (Err, w) end
  | _ => step C (Some K) w o
  end.
Fixpoint run_r {S} (C : score S) (K : sseek S) (w : wrapper S) (h : list op) : Res (list ret * wrapper S) :=
  match h with
  | [] => Ok ([], w)
  | o :: h' => do (r, w1) <- step_r C K w o; do (rs, w2) <- run_r C K w1 h'; Ok (r :: rs, w2)
  end.
Definition run_core_r {S} (C : score S) (K : sseek S) (m : Res S) (h : list op) : Res (list ret) :=
  do st <- m; do (rs, _) <- run_r C K (w_new C st) h; Ok rs.
(** As [cipher_run]; the other ciphers cannot seek. *)
Definition cipher_run_r (e : env) (c : cipher) (h : list op) : Res (list ret) :=
  match c with
  | CChaCha v n key iv => run_core_r (chacha_score e v n) (chacha_seek v) (new_internal v key iv) h
  | CXChaCha n key iv => run_core_r (chacha_score e Ietf n) (chacha_seek Ietf) (xchacha_new n key iv) h
  | CSalsa n key iv => run_core_r (salsa_score e n) salsa_seek (Ok (salsa_new key iv)) h
  | CXSalsa n key iv => run_core_r (salsa_score e n) salsa_seek (Ok (xsalsa_new n key iv)) h
  | _ => cipher_run e c h
  end.

(** ** Typed positions (C56) *)
(** In the crate [cipher], macro [impl_seek_num!]: negative positions are rejected by
    [into_block_byte] and never returned by [from_block_byte]. *)
Definition try_seek_z_r {S} (C : score S) (K : sseek S) (w : wrapper S) (z : Z) : Res (option (wrapper S)) :=
  if (z <? 0)%Z then Ok None
  else match into_block_byte (N.of_nat (sc_bs C)) (sk_mod K) z with
       | None => Ok None
       | Some (block, byte) => try_seek_r C K w (N.of_nat (sc_bs C) * block + byte)
       end.
Definition try_current_pos_z_r {S} (C : score S) (K : sseek S) (usz : N) (t : int_ty) (w : wrapper S) : option Z :=
  match try_current_pos_z C K usz t w with
  | Some z => if (z <? 0)%Z then None else Some z
  | None => None
  end.
Definition tstep_r {S} (C : score S) (K : sseek S) (usz : N) (w : wrapper S) (o : top) : Res (tret * wrapper S) :=
  match o with
  | Plain o => do (r, w') <- step_r C K w o; Ok (Ans r, w')
  | TSeek _ z => do r <- try_seek_z_r C K w z;
                 match r with Some w' => Ok (Ans Done, w') | None => Ok (Ans Err, w) end
  | TPos t => match try_current_pos_z_r C K usz t w with Some z => Ok (At z, w) | None => Ok (Ans Err, w) end
  end.
Fixpoint trun_r {S} (C : score S) (K : sseek S) (usz : N) (w : wrapper S) (h : list top) : Res (list tret) :=
  match h with
  | [] => Ok []
  | o :: h' => do (r, w1) <- tstep_r C K usz w o; do rs <- trun_r C K usz w1 h'; Ok (r :: rs)
  end.
Definition typed_run_r (e : env) (c : cipher) (h : list top) : Res (list tret) :=
  let go {S} (C : score S) K (m : Res S) := do st <- m; trun_r C K (e_usz e) (w_new C st) h in
  match c with
  | CChaCha v n key iv => go (chacha_score e v n) (chacha_seek v) (new_internal v key iv)
  | CXChaCha n key iv => go (chacha_score e Ietf n) (chacha_seek Ietf) (xchacha_new n key iv)
  | CSalsa n key iv => go (salsa_score e n) salsa_seek (Ok (salsa_new key iv))
  | CXSalsa n key iv => go (salsa_score e n) salsa_seek (Ok (xsalsa_new n key iv))
  | _ => Panic
  end.

(** ** The Salsa counter (C36) *)
(** [salsa20/src/backends/soft.rs:25]: [self.0.set_block_pos(self.0.get_block_pos().wrapping_add(1))]. *)
Definition salsa_gen_ks_block_r (n : nat) (st : list N) : list N * list N :=
  let res := s_run_rounds n st in
  (bytes_of_words res, salsa_set_pos st ((salsa_get_pos st + 1) mod M64)).

(** ** [chacha20/Cargo.toml:26-27] (C48) *)
(** [zeroize = ["dep:zeroize", "cipher?/zeroize"]]: the crate's feature now turns on that of
    [cipher], so that [ext] holds whenever [own] does. *)
Definition features_r (f : features) : features := {| own := own f; Lifecycle.ext := Lifecycle.ext f || own f |}.
Definition after_drop_r (e : env) (f : features) (c : cipher) (h : list op) : Res (list N) :=
  after_drop e (features_r f) c h.

(** ** The last lines of the SSE2 backend (C52) *)
(** [chacha20/src/backends/sse2.rs:54], [:133]: [_mm_extract_epi32(v[3], 1)] becomes
    [_mm_cvtsi128_si32(_mm_shuffle_epi32(v[3], 0b01_01_01_01))]. *)
Definition lane1_r (a : m128) : N := Simd.mm_cvtsi128_si32 (Simd.mm_shuffle_epi32 a 0x55).
Definition sse2_inner_r (var : variant) (n : nat) (f : list req) (st : list N) : Res (list N * list N) :=
  do (o, v) <- run_reqs (sse2_backend var n) f (sse2_load st);
  let st := upd st 12 (Simd.mm_cvtsi128_si32 (nth 3 v [])) in
  let st := if (counter_size var =? 8)%nat then upd st 13 (lane1_r (nth 3 v [])) else st in
  Ok (o, st).
Definition sse2_rng_inner_r (var : variant) (n : nat) (st : list N) : list N * list N :=
  let v := sse2_load st in
  let res := sse2_rounds var n v in
  let v := upd v 3 (Simd.mm_add_epi64 (nth 3 v []) (Simd.mm_set_epi64x 0 (N.of_nat sse2_PAR_BLOCKS))) in
  let buf := flat_map (fun block => flat_map (fun i => nth i (nth block res []) []) (seq 0 4)) (seq 0 sse2_PAR_BLOCKS) in
  let st := upd st 12 (Simd.mm_cvtsi128_si32 (nth 3 v [])) in
  let st := upd st 13 (lane1_r (nth 3 v [])) in
  (buf, st).
Definition isa_sse2_inner_r v :=
  [Isa.mm_loadu_si128] ++ isa_sse2_gen v ++ [Isa.mm_cvtsi128_si32] ++ by_counter v [] [Isa.mm_cvtsi128_si32; Isa.mm_shuffle_epi32].
Definition isa_sse2_rng_inner_r v :=
  [Isa.mm_loadu_si128] ++ isa_sse2_rng_gen v ++ [Isa.mm_cvtsi128_si32; Isa.mm_cvtsi128_si32; Isa.mm_shuffle_epi32].
Definition cipher_executes_r (c : config) (p : cpu) (v : variant) : list intrinsic :=
  match cipher_backend c p with BSse2 => isa_sse2_inner_r v | _ => cipher_executes c p v end.
Definition rng_executes_r (c : config) (p : cpu) (v : variant) : list intrinsic :=
  match rng_backend c p with BSse2 => isa_sse2_rng_inner_r v | _ => rng_executes c p v end.

(** ** The condition in [new_internal] (C58) *)
(** [chacha20/src/lib.rs:169]: [chacha20_backend = "avx512"] becomes
    [all(chacha20_avx512, chacha20_backend = "avx512")], as in [:87] and [:248]. *)
Definition lib_new_internal_r : Cfg.src :=
  Cfg.when Cfg.cipher_or_rng (Cfg.cat [
    Cfg.decls "crate" ["ChaChaCore::new_internal"]; Cfg.uses "crate" ["STATE_WORDS"; "CONSTANTS"];
    Cfg.If (Cfg.CAtom Cfg.BSoft) (Cfg.tokens_value Cfg.tok0)
    (Cfg.If Cfg.any_x86
      (Cfg.If (Cfg.CAnd (Cfg.CAtom Cfg.CAvx512) (Cfg.CAtom Cfg.BAvx512)) (Cfg.tokens_value Cfg.tok0)
      (Cfg.If (Cfg.CAtom Cfg.BAvx2) (Cfg.tokens_value Cfg.tok0)
      (Cfg.If (Cfg.CAtom Cfg.BSse2) (Cfg.tokens_value Cfg.tok0)
      (Cfg.If (Cfg.CAtom Cfg.CAvx512)
         (Cfg.Cat (Cfg.uses "crate" ["avx512_cpuid"; "avx2_cpuid"; "sse2_cpuid"]) (Cfg.tokens_value Cfg.tok3))
         (Cfg.Cat (Cfg.uses "crate" ["avx2_cpuid"; "sse2_cpuid"]) (Cfg.tokens_value Cfg.tok2))))))
    (Cfg.tokens_value Cfg.tok0))])%string.
Definition crate_r : Cfg.src := Cfg.cat [
  Cfg.externs;
  Cfg.mod_ "crate::variants" Cfg.variants_rs;
  Cfg.backends_rs;
  Cfg.when (Cfg.CAtom Cfg.FCipher) (Cfg.mod_ "crate::chacha" Cfg.chacha_rs);
  Cfg.when (Cfg.CAtom Cfg.FLegacy) (Cfg.mod_ "crate::legacy" Cfg.legacy_rs);
  Cfg.when (Cfg.CAtom Cfg.FRng) (Cfg.mod_ "crate::rng" Cfg.rng_rs);
  Cfg.when (Cfg.CAtom Cfg.FXchacha) (Cfg.mod_ "crate::xchacha" Cfg.xchacha_rs);
  Cfg.lib_head; Cfg.lib_tokens; lib_new_internal_r; Cfg.lib_process; Cfg.lib_rest]%string.
Definition items_r (b : Cfg.build) : list Cfg.item := Cfg.active (Cfg.atoms b) crate_r.

(** ** NEON on big-endian targets (C62) *)
(** [chacha20/src/backends/neon.rs:85-88], [:106-109]: [vst1q_u64(...offset(12).cast(), vreinterpretq_u64_u32(r))]
    becomes [vst1q_u32(...offset(12), r)]: four 32-bit elements. *)
Definition neon_store_row3_r (be : bool) (st : list N) (r : m128) : Res (list N) :=
  let mem := mem_of_u32s be st in
  do p <- p_add (whole mem 4) 12;
  do mem <- p_store mem p (mem_of_u32s be r);
  Ok (u32s_of_mem be mem).
Definition neon_inner_r (be : bool) (var : variant) (n : nat) (f : list (req * list N)) (st : list N)
  : Res (list (list N) * list N) :=
  do s <- neon_new_at be st;
  do (o, s) <- m_run (neon_mbackend var n) f s;
  let r3 := nth 3 (neon_state s) [] in
  do st <- match var with
           | Ietf => Ok (upd st 12 (vgetq_lane_u32 r3 0))
           | Legacy => neon_store_row3_r be st r3
           end;
  Ok (o, st).
(** [u32::from_le] *)
Definition u32_from_le (be : bool) (w : N) : N := if be then from_le (rev (to_le 4 w)) else w.
(** [neon.rs:110]: after the blocks are written, every word of the buffer is put through [u32::from_le]. *)
Definition neon_rng_inner_r (be : bool) (var : variant) (n : nat) (st buffer : list N) : Res (list N * list N) :=
  do s <- neon_new_at be st;
  do mem <- neon_rng_write var n s (mem_of_u32s be buffer);
  let r3 := neon_add_counter var (nth 3 (neon_state s) []) (nth 3 (neon_ctrs s) []) in
  do st <- neon_store_row3_r be st r3;
  Ok (map (u32_from_le be) (u32s_of_mem be mem), st).
