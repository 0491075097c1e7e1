(** How much the ciphers compute: which calls the wrapper makes of its core, and how many
    blocks a backend puts through the rounds to serve one.

    The wrapper [StreamCipherCoreWrapper] is outside the repository (environment contract,
    [CipherWrapper.v]).  Calls of the core for no blocks at all are left out of the count:
    they compute nothing. *)
From Verif Require Export Word Res.
From Verif Require Import SpecStream ChaChaCore ChaChaBackend ChaChaDispatch XChaCha CipherWrapper Salsa Rabbit Hc256 Rc4 Ciphers.

(** ** What is asked of the core *)
(** A core with a record, latest last, of the numbers of blocks asked of it. *)
Definition noted (k : nat) : list nat := match k with O => [] | _ => [k] end.
Definition logged {S} (C : score S) : score (list nat * S) :=
  {| sc_bs := sc_bs C;
     sc_gen := fun k (x : list nat * S) => do (b, st) <- sc_gen C k (snd x); Ok (b, (fst x ++ noted k, st));
     sc_rem := fun (x : list nat * S) => sc_rem C (snd x) |}.
Definition logged_seek {S} (K : sseek S) : sseek (list nat * S) :=
  {| sk_mod := sk_mod K;
     sk_get := fun (x : list nat * S) => sk_get K (snd x);
     sk_set := fun (x : list nat * S) p => (fst x, sk_set K (snd x) p) |}.

(** [Ciphers.run_core]: answers and record. *)
Definition work_core {S} (C : score S) (K : option (sseek S)) (m : Res S) (h : list op) : Res (list ret * list nat) :=
  do st <- m;
  do (rs, w) <- run (logged C) (option_map logged_seek K) (w_new (logged C) ([], st)) h;
  Ok (rs, fst (w_core w)).
(** [Ciphers.cipher_run].  [Rc4] has no core and no blocks: it makes each byte as it is
    wanted ([rc4/src/lib.rs:83-101]). *)
Definition cipher_work (e : env) (c : cipher) (h : list op) : Res (list ret * list nat) :=
  match c with
  | CChaCha v n key iv => work_core (chacha_score e v n) (Some (chacha_seek v)) (new_internal v key iv) h
  | CXChaCha n key iv => work_core (chacha_score e Ietf n) (Some (chacha_seek Ietf)) (xchacha_new n key iv) h
  | CSalsa n key iv => work_core (salsa_score e n) (Some salsa_seek) (Ok (salsa_new key iv)) h
  | CXSalsa n key iv => work_core (salsa_score e n) (Some salsa_seek) (Ok (xsalsa_new n key iv)) h
  | CRabbit key iv => work_core (rabbit_score e) None (rabbit_new (e_ck e) key iv) h
  | CRabbitKeyOnly key => work_core (rabbit_score e) None (rabbit_key_only (e_ck e) key) h
  | CHc256 key iv => work_core (hc_score e) None (hc_new (e_ck e) (2 ^ e_usz e) key iv) h
  | CRc4 _ => do rs <- cipher_run e c h; Ok (rs, [])
  end.

(** ** What a backend computes *)
Inductive bname := BSoft | BSse2 | BAvx2 | BNeon | BAvx512.
(** The backend of [process_with_backend] [chacha20/src/lib.rs:239-298]
    (as in [ChaChaDispatch.process_with_backend]). *)
Definition backend_of (c : config) (p : cpu) : bname :=
  match c_backend c with
  | CfgSoft => BSoft
  | b =>
    match c_target c with
    | X86 =>
      match b, c_avx512 c with
      | CfgAvx512, true => BAvx512
      | CfgAvx2, _ => BAvx2
      | CfgSse2, _ => BSse2
      | _, a => if a && has_avx512 p then BAvx512 else if has_avx2 p then BAvx2 else if has_sse2 p then BSse2 else BSoft
      end
    | Aarch64Neon => BNeon
    | OtherTarget => BSoft
    end
  end.
(** [ParBlocksSize]: [chacha20/src/backends/soft.rs:27], [sse2.rs:70], [avx2.rs:127],
    [neon.rs:119], [avx512.rs:286]. *)
Definition par_of (b : bname) : nat :=
  match b with BSoft => 1 | BSse2 | BAvx2 => 4 | BNeon => 8 | BAvx512 => 16 end.
(** Blocks put through the rounds for one request.  One block:
    [soft.rs:34] one; [sse2.rs:78], [avx2.rs:135] all four; [neon.rs:135] all eight
    ([gen_par_ks_blocks] into a scratch buffer); [avx512.rs:306] one. *)
Definition lanes_one (b : bname) : nat := match b with BAvx512 => 1 | _ => par_of b end.
(** Several: [gen_par_ks_blocks] as many as it writes; [gen_tail_blocks] by default
    ([cipher], environment contract) one block at a time, [avx512.rs:316-338] by size. *)
Definition lanes_tail (b : bname) (k : nat) : nat :=
  match b with
  | BAvx512 =>
      if (k =? 0)%nat then 0
      else if (k =? 1)%nat then lanes_one b
      else if (k =? 2)%nat then 2            (* [rounds_halfwide]: one [__m256i] *)
      else if (k <=? 4)%nat then 4           (* [rounds::<1>]: four blocks a vector *)
      else if (k <=? 8)%nat then 8           (* [rounds::<2>] *)
      else 16                                (* [rounds::<MAX_N>] *)
  | _ => k * lanes_one b
  end%nat.
Definition lanes_req (b : bname) (r : req) : nat :=
  match r with One => lanes_one b | Par => par_of b | Tail k => lanes_tail b k end.
Definition sum (l : list nat) : nat := fold_right Nat.add O l.
(** For one call of the core: the requests [cipher] makes of the backend. *)
Definition lanes (b : bname) (k : nat) : nat := sum (map (lanes_req b) (closure_reqs (par_of b) k)).
(** All block computations of a ChaCha cipher in a history. *)
Definition lanes_of (e : env) (log : list nat) : nat := sum (map (lanes (backend_of (e_cfg e) (e_cpu e))) log).
