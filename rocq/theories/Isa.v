(** Which instruction-set extensions the ChaCha backends execute.

    An intrinsic may only be executed on a CPU that has the extension it belongs to; on
    any other CPU the call is undefined behaviour (in practice an illegal instruction).
    Each definition below lists, for one function of the code, the intrinsics it can
    execute, callees included.  Simplification: this is a list of everything a call may
    execute, in order of first use and without repetition counts; what the intrinsics
    compute is in [Simd.v].  The [match size_of::<V::Counter>()] arms are resolved at
    compile time by the variant, so only the live arm is listed. *)
From Verif Require Export ChaChaDispatch.

(** Extensions that appear in the code or in the declarations of its intrinsics. *)
Inductive ext := SSE2 | SSSE3 | SSE41 | AVX | AVX2 | AVX512F | AVX512VL | NEON.

(** The intrinsics used by the four backends. *)
Inductive intrinsic :=
| mm_add_epi32 | mm_add_epi64 | mm_cvtsi128_si32 | mm_extract_epi32 | mm_loadu_si128
| mm_set_epi32 | mm_set_epi64x | mm_shuffle_epi32 | mm_slli_epi32 | mm_srli_epi32
| mm_storeu_si128 | mm_xor_si128
| mm256_add_epi32 | mm256_add_epi64 | mm256_broadcastsi128_si256 | mm256_extract_epi32
| mm256_set_epi32 | mm256_set_epi64x | mm256_setzero_si256 | mm256_shuffle_epi32
| mm256_shuffle_epi8 | mm256_slli_epi32 | mm256_srli_epi32 | mm256_xor_si256
| mm256_broadcast_i32x4 | mm256_permutex2var_epi64 | mm256_rol_epi32 | mm256_setr_epi64x
| mm256_storeu_epi32 | mm_loadu_epi32 | mm_rol_epi32 | mm_storeu_epi32
| mm512_add_epi32 | mm512_add_epi64 | mm512_broadcast_i32x4 | mm512_permutex2var_epi64
| mm512_rol_epi32 | mm512_set_epi32 | mm512_set_epi64 | mm512_setr_epi64
| mm512_setzero_si512 | mm512_shuffle_epi32 | mm512_shuffle_i32x4 | mm512_storeu_si512
| mm512_xor_si512
| vaddq_u32_ | vaddq_u64_ | veorq_u32_ | vextq_u32_ | vgetq_lane_u32_ | vld1q_u32_ | vld1q_u8_
| vorrq_u32_ | vqtbl1q_u8_ | vreinterpretq_ | vrev32q_u16_ | vshlq_n_u32_ | vshrq_n_u32_
| vst1q_u64_ | vst1q_u8_.

(** The [#[target_feature(enable = ...)]] of the intrinsics in [core::arch] (the "CPUID
    Flags" line of Intel's guide); not part of the repository. *)
Definition needs (i : intrinsic) : list ext :=
  match i with
  | mm_add_epi32 | mm_add_epi64 | mm_cvtsi128_si32 | mm_loadu_si128 | mm_set_epi32
  | mm_set_epi64x | mm_shuffle_epi32 | mm_slli_epi32 | mm_srli_epi32 | mm_storeu_si128
  | mm_xor_si128 => [SSE2]
  | mm_extract_epi32 => [SSE41]
  | mm256_set_epi32 | mm256_set_epi64x | mm256_setr_epi64x | mm256_setzero_si256
  | mm256_extract_epi32 => [AVX]
  | mm256_add_epi32 | mm256_add_epi64 | mm256_broadcastsi128_si256 | mm256_shuffle_epi32
  | mm256_shuffle_epi8 | mm256_slli_epi32 | mm256_srli_epi32 | mm256_xor_si256 => [AVX2]
  | mm256_broadcast_i32x4 | mm256_permutex2var_epi64 | mm256_rol_epi32 | mm256_storeu_epi32
  | mm_loadu_epi32 | mm_rol_epi32 | mm_storeu_epi32 => [AVX512F; AVX512VL]
  | mm512_add_epi32 | mm512_add_epi64 | mm512_broadcast_i32x4 | mm512_permutex2var_epi64
  | mm512_rol_epi32 | mm512_set_epi32 | mm512_set_epi64 | mm512_setr_epi64
  | mm512_setzero_si512 | mm512_shuffle_epi32 | mm512_shuffle_i32x4 | mm512_storeu_si512
  | mm512_xor_si512 => [AVX512F]
  | _ => [NEON]
  end.

(** The counter additions: [4 => a, 8 => b] (e.g. [sse2.rs:80-84]). *)
Definition by_counter {A} (v : variant) (a b : A) : A :=
  match v with Ietf => a | Legacy => b end.

(** * SSE2 *)
(** [sse2.rs:269-293]: [add_xor_rot]. *)
Definition isa_sse2_add_xor_rot := [mm_add_epi32; mm_xor_si128; mm_slli_epi32; mm_srli_epi32].
(** [sse2.rs:186-193]: [double_quarter_round], with [rows_to_cols] (:230-239) and
    [cols_to_rows] (:258-267). *)
Definition isa_sse2_dqr := isa_sse2_add_xor_rot ++ [mm_shuffle_epi32].
(** The counter additions of [sse2.rs:80-84, 97-101, 160-164, 175-179]. *)
Definition isa_sse2_ctr (v : variant) :=
  by_counter v [mm_add_epi32; mm_set_epi32] [mm_add_epi64; mm_set_epi64x].
(** [sse2.rs:155-184]: [rounds]. *)
Definition isa_sse2_rounds v := isa_sse2_ctr v ++ isa_sse2_dqr ++ [mm_add_epi32].
(** [sse2.rs:76-91]: [gen_ks_block]; [sse2.rs:92-108]: [gen_par_ks_blocks]. *)
Definition isa_sse2_gen v := isa_sse2_rounds v ++ isa_sse2_ctr v ++ [mm_storeu_si128].
(** [sse2.rs:30-56]: [inner]; :54 is executed when the counter has 8 bytes. *)
Definition isa_sse2_inner v :=
  [mm_loadu_si128] ++ isa_sse2_gen v ++ [mm_cvtsi128_si32]
  ++ by_counter v [] [mm_extract_epi32].
(** [sse2.rs:136-153]: [gen_ks_blocks] of the generator. *)
Definition isa_sse2_rng_gen v := isa_sse2_rounds v ++ [mm_add_epi64; mm_set_epi64x; mm_storeu_si128].
(** [sse2.rs:111-134]: [rng_inner]; :133 is unconditional. *)
Definition isa_sse2_rng_inner v :=
  [mm_loadu_si128] ++ isa_sse2_rng_gen v ++ [mm_cvtsi128_si32; mm_extract_epi32].

(** * AVX2 *)
(** [avx2.rs:311-354]: [add_xor_rot]. *)
Definition isa_avx2_add_xor_rot :=
  [mm256_set_epi64x; mm256_add_epi32; mm256_xor_si256; mm256_shuffle_epi8; mm256_slli_epi32; mm256_srli_epi32].
(** [avx2.rs:228-234, 272-281, 300-309]: [double_quarter_round] and the two shuffles. *)
Definition isa_avx2_dqr := isa_avx2_add_xor_rot ++ [mm256_shuffle_epi32].
(** [avx2.rs:207-225]: [rounds]. *)
Definition isa_avx2_rounds := [mm256_setzero_si256] ++ isa_avx2_dqr ++ [mm256_add_epi32].
(** The counter additions of [avx2.rs:51-55, 59-63, 137-141, 160-166]. *)
Definition isa_avx2_ctr v :=
  by_counter v [mm256_add_epi32; mm256_set_epi32] [mm256_add_epi64; mm256_set_epi64x].
(** [avx2.rs:132-152]: [gen_ks_block]; [avx2.rs:153-179]: [gen_par_ks_blocks]. *)
Definition isa_avx2_gen v := isa_avx2_rounds ++ isa_avx2_ctr v ++ [mm_storeu_si128].
(** [avx2.rs:34-79]: [inner]. *)
Definition isa_avx2_inner v :=
  [mm256_broadcastsi128_si256; mm_loadu_si128] ++ isa_avx2_ctr v ++ isa_avx2_gen v
  ++ [mm256_extract_epi32].
(** [avx2.rs:81-112]: [rng_inner], with [rng_gen_par_ks_blocks] (:184-204); always 64-bit. *)
Definition isa_avx2_rng_inner :=
  [mm256_broadcastsi128_si256; mm_loadu_si128; mm256_add_epi64; mm256_set_epi64x]
  ++ isa_avx2_rounds ++ [mm256_add_epi64; mm256_set_epi64x; mm_storeu_si128; mm256_extract_epi32].

(** * AVX-512 *)
(** [avx512.rs:341-478]: [rounds] and its callees on full registers. *)
Definition isa_avx512_rounds :=
  [mm512_setzero_si512; mm512_add_epi32; mm512_xor_si512; mm512_rol_epi32; mm512_shuffle_epi32].
(** [avx512.rs:487-556]: the half-width functions. *)
Definition isa_avx512_rounds_half :=
  [mm256_add_epi32; mm256_xor_si256; mm256_rol_epi32; mm256_shuffle_epi32].
(** [avx512.rs:561-625]: the quarter-width functions. *)
Definition isa_avx512_rounds_quarter :=
  [mm_add_epi32; mm_xor_si128; mm_rol_epi32; mm_shuffle_epi32].
(** [avx512.rs:67-80]: [increment_ctr]. *)
Definition isa_avx512_increment v :=
  by_counter v [mm_add_epi32; mm_set_epi32] [mm_add_epi64; mm_set_epi64x].
(** [avx512.rs:84-211]: [gen_blocks_fullwidth]. *)
Definition isa_avx512_fullwidth v :=
  [mm512_broadcast_i32x4]
  ++ by_counter v [mm512_add_epi32; mm512_set_epi32] [mm512_add_epi64; mm512_set_epi64]
  ++ isa_avx512_increment v ++ isa_avx512_rounds
  ++ [mm512_permutex2var_epi64; mm512_setr_epi64; mm512_shuffle_i32x4; mm512_storeu_si512].
(** [avx512.rs:213-276]: [gen_blocks_halfwidth]. *)
Definition isa_avx512_halfwidth v :=
  [mm256_broadcast_i32x4]
  ++ by_counter v [mm256_add_epi32; mm256_set_epi32] [mm256_add_epi64; mm256_set_epi64x]
  ++ isa_avx512_rounds_half ++ isa_avx512_increment v
  ++ [mm256_permutex2var_epi64; mm256_setr_epi64x; mm256_storeu_epi32].
(** [avx512.rs:296-313]: [gen_ks_block]. *)
Definition isa_avx512_block v := isa_avx512_rounds_quarter ++ isa_avx512_increment v ++ [mm_storeu_epi32].
(** [avx512.rs:29-57]: [inner]. *)
Definition isa_avx512_inner v :=
  [mm_loadu_epi32] ++ isa_avx512_fullwidth v ++ isa_avx512_halfwidth v ++ isa_avx512_block v
  ++ [mm_extract_epi32].

(** * NEON *)
(** [neon.rs] as a whole: every intrinsic of the file belongs to the one extension. *)
Definition isa_neon := [vaddq_u32_; vaddq_u64_; veorq_u32_; vextq_u32_; vgetq_lane_u32_; vld1q_u32_;
  vld1q_u8_; vorrq_u32_; vqtbl1q_u8_; vreinterpretq_; vrev32q_u16_; vshlq_n_u32_; vshrq_n_u32_;
  vst1q_u64_; vst1q_u8_].

(** * Machines *)
(** A CPU: the extensions it has. *)
Definition machine := ext -> bool.
(** The extensions every CPU with a given one has (Intel SDM vol. 1, ch. 5). *)
Definition real (m : machine) : Prop :=
  (m AVX512VL = true -> m AVX512F = true) /\ (m AVX512F = true -> m AVX2 = true)
  /\ (m AVX2 = true -> m AVX = true) /\ (m AVX = true -> m SSE41 = true)
  /\ (m SSE41 = true -> m SSSE3 = true) /\ (m SSSE3 = true -> m SSE2 = true).

(** [chacha20/src/lib.rs:104-106]: what the three [cpufeatures] tokens test.  That
    detection is right (including operating-system support) is assumed. *)
Definition detect (m : machine) : cpu :=
  {| has_avx512 := m AVX512F && m AVX512VL; has_avx2 := m AVX2; has_sse2 := m SSE2 |}.

(** The compile-time requirements: [lib.rs:88-100] refuses a forced backend unless its
    features are enabled for the build, [lib.rs:289] selects NEON by [target_feature]; a
    program built with a feature only runs on machines that have it. *)
Definition build_requires (c : config) : list ext :=
  match c_target c with
  | X86 => match c_backend c with
           | CfgAvx512 => if c_avx512 c then [AVX512F; AVX512VL] else []   (* :88-90 *)
           | CfgAvx2 => [AVX2]                                             (* :93-95 *)
           | CfgSse2 => [SSE2]                                             (* :98-100 *)
           | _ => []
           end
  | Aarch64Neon => [NEON]                                                  (* :289 *)
  | OtherTarget => []
  end.
Definition runs_on (c : config) (m : machine) : Prop :=
  compiles c = true /\ Forall (fun e => m e = true) (build_requires c).

(** The backends. *)
Inductive backend := BSoft | BSse2 | BAvx2 | BAvx512 | BNeon.

(** [lib.rs:239-298]: the backend a [process_with_backend] call runs. *)
Definition cipher_backend (c : config) (p : cpu) : backend :=
  match c_backend c with
  | CfgSoft => BSoft
  | b =>
    match c_target c with
    | X86 =>
      match b, c_avx512 c with
      | CfgAvx512, true => BAvx512
      | CfgAvx2, _ => BAvx2
      | CfgSse2, _ => BSse2
      | _, a =>
          if a && has_avx512 p then BAvx512
          else if has_avx2 p then BAvx2
          else if has_sse2 p then BSse2
          else BSoft
      end
    | Aarch64Neon => BNeon
    | OtherTarget => BSoft
    end
  end.
(** [rng.rs:49-92]: the backend a [generate] call runs. *)
Definition rng_backend (c : config) (p : cpu) : backend :=
  match c_backend c with
  | CfgSoft => BSoft
  | b =>
    match c_target c with
    | X86 =>
      match b with
      | CfgAvx2 | CfgAvx512 => BAvx2
      | CfgSse2 => BSse2
      | _ => if has_avx2 p then BAvx2 else if has_sse2 p then BSse2 else BSoft
      end
    | Aarch64Neon => BNeon
    | OtherTarget => BSoft
    end
  end.

(** These are the choices the model of the code makes. *)
Lemma process_with_backend_runs c p v n f st :
  process_with_backend c p v n f st =
  match cipher_backend c p with
  | BSoft => soft_inner v n (f 1%nat) st
  | BSse2 => sse2_inner v n (f 4%nat) st
  | BAvx2 => avx2_inner v n (f 4%nat) st
  | BAvx512 => avx512_inner v n (f 16%nat) st
  | BNeon => neon_inner v n (f 8%nat) st
  end.
Proof.
  unfold process_with_backend, cipher_backend.
  destruct (c_backend c), (c_target c), (c_avx512 c), (has_avx512 p), (has_avx2 p), (has_sse2 p); reflexivity.
Qed.
Lemma generate_runs c p v n st :
  generate c p v n st =
  match rng_backend c p with
  | BSse2 => sse2_rng_inner v n st
  | BAvx2 => avx2_rng_inner n st
  | BNeon => neon_rng_inner v n st
  | _ => soft_gen_ks_blocks n st
  end.
Proof.
  unfold generate, rng_backend.
  destruct (c_backend c), (c_target c), (has_avx2 p), (has_sse2 p); reflexivity.
Qed.

(** The intrinsics the two entry points may execute. *)
Definition cipher_executes (c : config) (p : cpu) (v : variant) : list intrinsic :=
  match cipher_backend c p with
  | BSoft => []
  | BSse2 => isa_sse2_inner v
  | BAvx2 => isa_avx2_inner v
  | BAvx512 => isa_avx512_inner v
  | BNeon => isa_neon
  end.
Definition rng_executes (c : config) (p : cpu) (v : variant) : list intrinsic :=
  match rng_backend c p with
  | BSse2 => isa_sse2_rng_inner v
  | BAvx2 => isa_avx2_rng_inner
  | BNeon => isa_neon
  | _ => []
  end.
