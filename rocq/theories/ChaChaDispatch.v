(** Model of the backend selection in [chacha20/src/lib.rs] and [rng.rs].

    What the compiler and the CPU decide is a parameter: a build configuration
    (target, [chacha20_backend] / [chacha20_avx512] cfgs) and the outcome of run-time
    feature detection.  [target_feature] requirements of the forced backends are
    compile errors in the code ([lib.rs:88-101]) and are not represented. *)
From Verif Require Export ChaChaSoft ChaChaSse2 ChaChaAvx2 ChaChaAvx512 ChaChaNeon.

(** Targets distinguished by the code: [x86]/[x86_64]; [aarch64] with [neon]; the rest. *)
Inductive target := X86 | Aarch64Neon | OtherTarget.
(** Values of the [chacha20_backend] cfg ([lib.rs:83-99]); [NoCfg]: unset. *)
Inductive backend_cfg := NoCfg | CfgSoft | CfgSse2 | CfgAvx2 | CfgAvx512.
Record config := { c_target : target; c_backend : backend_cfg; c_avx512 : bool (* cfg(chacha20_avx512) *) }.
(** Outcome of [cpufeatures] detection ([lib.rs:103-106]): [token.get()]. *)
Record cpu := { has_avx512 : bool; has_avx2 : bool; has_sse2 : bool }.

(** The configurations that compile.  [chacha20_backend="avx512"] without
    [chacha20_avx512] on x86 is not one: [lib.rs:110] then makes [Tokens] a pair, but
    [lib.rs:169] initialises the field with [()] (proved about [Cfg.v] in
    [PropertiesCfg]). *)
Definition compiles (c : config) : bool :=
  match c_target c, c_backend c with
  | X86, CfgAvx512 => c_avx512 c
  | _, _ => true
  end.

(** [chacha20/src/lib.rs:239-298].  [f P] is what the caller's closure asks of a
    backend with [P] parallel blocks. *)
Definition process_with_backend (c : config) (p : cpu) (v : variant) (n : nat)
    (f : nat -> list req) (st : list N) : Res (list N * list N) :=
  let soft := soft_inner v n (f 1%nat) st in
  let avx512 := avx512_inner v n (f 16%nat) st in
  let avx2 := avx2_inner v n (f 4%nat) st in
  let sse2 := sse2_inner v n (f 4%nat) st in
  let neon := neon_inner v n (f 8%nat) st in
  match c_backend c with
  | CfgSoft => soft                                                 (* :244 *)
  | b =>
    match c_target c with
    | X86 =>                                                        (* :246 *)
      match b, c_avx512 c with
      | CfgAvx512, true => avx512                                   (* :248 *)
      | CfgAvx2, _ => avx2                                          (* :252 *)
      | CfgSse2, _ => sse2                                          (* :256 *)
      | _, a =>                                                     (* :260 *)
          if a && has_avx512 p then avx512                          (* :266-273 *)
          else if has_avx2 p then avx2                              (* :274 *)
          else if has_sse2 p then sse2                              (* :279 *)
          else soft                                                 (* :284 *)
      end
    | Aarch64Neon => neon                                           (* :289 *)
    | OtherTarget => soft                                           (* :295 *)
    end
  end.

(** [cipher]'s [write_keystream_blocks] on an [n]-block buffer (see [closure_reqs]). *)
Definition core_write (c : config) (p : cpu) (v : variant) (n : nat) (k : nat) (st : list N)
  : Res (list N * list N) :=
  process_with_backend c p v n (fun par => closure_reqs par k) st.

(** [chacha20/src/rng.rs:49-92] ([Generator::generate]); 64 words. *)
Definition generate (c : config) (p : cpu) (v : variant) (n : nat) (st : list N) : list N * list N :=
  let soft := soft_gen_ks_blocks n st in
  let avx2 := avx2_rng_inner n st in
  let sse2 := sse2_rng_inner v n st in
  let neon := neon_rng_inner v n st in
  match c_backend c with
  | CfgSoft => soft                                                 (* rng.rs:51 *)
  | b =>
    match c_target c with
    | X86 =>                                                        (* rng.rs:53 *)
      match b with
      | CfgAvx2 | CfgAvx512 => avx2                                 (* rng.rs:56 *)
      | CfgSse2 => sse2                                             (* rng.rs:60 *)
      | _ => if has_avx2 p then avx2                                (* rng.rs:70 *)
             else if has_sse2 p then sse2                           (* rng.rs:74 *)
             else soft                                              (* rng.rs:79 *)
      end
    | Aarch64Neon => neon                                           (* rng.rs:83 *)
    | OtherTarget => soft                                           (* rng.rs:88 *)
    end
  end.

(** [chacha20/src/rng.rs:39-41]: [SeedableRng for ChaChaCore<R, V>]. *)
Definition core_from_seed (v : variant) (seed : list N) : Res (list N) :=
  new_internal v seed (repeat 0 8).
