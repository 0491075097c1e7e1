(** The public stream-cipher types, as run by a user: construct, then make any calls.

    [ChaCha8/12/20] ([chacha20/src/chacha.rs:16-22]), [ChaCha20Legacy]
    ([chacha20/src/legacy.rs:14-17]), [XChaCha8/12/20] ([chacha20/src/xchacha.rs:34-38]),
    [Salsa8/12/20] ([salsa20/src/lib.rs:30-38]), [XSalsa8/12/20] ([salsa20/src/xsalsa.rs:21-25]),
    [Rabbit], [RabbitKeyOnly] ([rabbit/src/lib.rs:45-47]), [Hc256] ([hc-256/src/lib.rs:38]):
    aliases of [StreamCipherCoreWrapper<Core>]; [Rc4] ([rc4/src/lib.rs:83-101]) implements the
    trait itself. *)
From Verif Require Export Word Res.
From Verif Require Import SpecStream ChaChaCore ChaChaDispatch XChaCha CipherWrapper Salsa Rabbit Hc256 Rc4.

(** Everything outside the program text that could matter: build configuration, CPU
    features, width of [usize] in bits, overflow checks. *)
Record env := { e_cfg : config; e_cpu : cpu; e_usz : N; e_ck : bool }.

(** [StreamCipherCore for ChaChaCore] [chacha20/src/lib.rs:233-304] *)
Definition chacha_score (e : env) (v : variant) (n : nat) : score (list N) :=
  {| sc_bs := 64;
     sc_gen := core_write (e_cfg e) (e_cpu e) v n;
     sc_rem := fun st => remaining_blocks v (e_usz e) (get_block_pos v st) |}.
(** [StreamCipherSeekCore for ChaChaCore] [chacha20/src/lib.rs:218-231]; [XChaChaCore]
    delegates to it [chacha20/src/xchacha.rs:69-93]. *)
Definition chacha_seek (v : variant) : sseek (list N) :=
  {| sk_mod := match v with Ietf => M32 | Legacy => M64 end;
     sk_get := get_block_pos v; sk_set := set_block_pos v |}.

(** [StreamCipherCore]/[StreamCipherSeekCore for SalsaCore] [salsa20/src/lib.rs:120-144];
    [XSalsaCore] delegates to it [salsa20/src/xsalsa.rs:52-76]. *)
Definition salsa_score (e : env) (n : nat) : score (list N) :=
  {| sc_bs := 64; sc_gen := salsa_write (e_ck e) n; sc_rem := salsa_remaining (e_usz e) |}.
Definition salsa_seek : sseek (list N) :=
  {| sk_mod := M64; sk_get := salsa_get_pos; sk_set := salsa_set_pos |}.

(** [StreamCipherCore for RabbitCore] [rabbit/src/lib.rs:277-290], [RabbitKeyOnlyCore]
    [:235-248]; [StreamCipherCore for Hc256Core] [hc-256/src/lib.rs:111-120]. *)
Definition rabbit_score (e : env) : score rstate :=
  {| sc_bs := 16; sc_gen := rabbit_write (e_ck e); sc_rem := rabbit_remaining |}.
Definition hc_score (e : env) : score hc :=
  {| sc_bs := 4; sc_gen := hc_write (e_ck e) (2 ^ e_usz e); sc_rem := hc_remaining |}.

(** A cipher type with its key material; [n] is the number of double rounds. *)
Inductive cipher :=
| CChaCha (v : variant) (n : nat) (key iv : list N)
| CXChaCha (n : nat) (key iv : list N)
| CSalsa (n : nat) (key iv : list N)
| CXSalsa (n : nat) (key iv : list N)
| CRabbit (key iv : list N)
| CRabbitKeyOnly (key : list N)
| CHc256 (key iv : list N)
| CRc4 (key : list N).

(** Wrap a fresh core and make the calls [h]. *)
Definition run_core {S} (C : score S) (K : option (sseek S)) (m : Res S) (h : list op) : Res (list ret) :=
  do st <- m; do (rs, _) <- run C K (w_new C st) h; Ok rs.

Definition cipher_run (e : env) (c : cipher) (h : list op) : Res (list ret) :=
  match c with
  | CChaCha v n key iv => run_core (chacha_score e v n) (Some (chacha_seek v)) (new_internal v key iv) h
  | CXChaCha n key iv => run_core (chacha_score e Ietf n) (Some (chacha_seek Ietf)) (xchacha_new n key iv) h
  | CSalsa n key iv => run_core (salsa_score e n) (Some salsa_seek) (Ok (salsa_new key iv)) h
  | CXSalsa n key iv => run_core (salsa_score e n) (Some salsa_seek) (Ok (xsalsa_new n key iv)) h
  | CRabbit key iv => run_core (rabbit_score e) None (rabbit_new (e_ck e) key iv) h
  | CRabbitKeyOnly key => run_core (rabbit_score e) None (rabbit_key_only (e_ck e) key) h
  | CHc256 key iv => run_core (hc_score e) None (hc_new (e_ck e) (2 ^ e_usz e) key iv) h
  | CRc4 key =>
      do r <- new_from_slice key;
      match r with
      | None => Panic                    (* [InvalidLength]; excluded by [cipher_ok] *)
      | Some s => do (rs, _) <- rc4_run s h; Ok rs
      end
  end.
