(** End of life and printing: the [Drop] and [Debug] implementations.

    Memory is modelled as the list of the fields of a value, in declaration order, one
    number per array element.  [core]'s drop glue is: run the type's own [drop], then drop
    the fields in order; nothing else writes to the memory. *)
Require Import String.
From Verif Require Export Word Res.
From Verif Require Import SpecStream ChaChaCore ChaChaDispatch XChaCha CipherWrapper Salsa Rabbit Hc256 Rc4 Ciphers BlockRng ChaChaRng.

(** ** Features *)
(** [own]: feature [zeroize] of the crate that defines the cipher; [ext]: feature [zeroize]
    of the crate [cipher] requested by anything else in the build (features are unified). *)
Record features := { own : bool; ext : bool }.
(** The defining crates. *)
Inductive crate := CrChaCha | CrSalsa | CrRabbit | CrHc256 | CrRc4.
(** Does the crate's feature [zeroize] turn on [cipher/zeroize]?
    [salsa20/Cargo.toml:24], [rabbit/Cargo.toml:23], [hc-256/Cargo.toml:23],
    [rc4/Cargo.toml:23]: [zeroize = ["cipher/zeroize"]].  [chacha20/Cargo.toml:26-27]:
    [zeroize] is an optional dependency; its implicit feature enables nothing else, and
    [:23] does not list it. *)
Definition forwards (c : crate) : bool := match c with CrChaCha => false | _ => true end.
(** Whether [cipher] is built with [zeroize]. *)
Definition cipher_zeroize (c : crate) (f : features) : bool := ext f || (own f && forwards c).

(** ** Memory *)
(** [Zeroize] for integers and arrays: every element is overwritten with zero. *)
Definition zeroize (l : list N) : list N := map (fun _ => 0) l.

(** [chacha20/src/lib.rs:118-129]: [state]; the [tokens] field holds CPU feature
    information only and is not part of the image.  [salsa20/src/lib.rs:59-64]. *)
Definition words_mem (st : list N) : list N := st.
(** [rabbit/src/lib.rs:50-56] *)
Definition rabbit_mem (s : rstate) : list N := r_x s ++ r_c s ++ [r_carry s].
(** [hc-256/src/lib.rs:40-46] *)
Definition hc_mem (s : hc) : list N := h_p s ++ h_q s ++ [h_idx s].
(** [rc4/src/lib.rs:20-24] *)
Definition rc4_mem (s : rc4) : list N := k_state s ++ [k_i s; k_j s].

(** [chacha20/src/lib.rs:306-311]; also run as the drop glue of [XChaChaCore]
    [xchacha.rs:42]. *)
Definition chacha_drop (f : features) (st : list N) : list N := if own f then zeroize st else st.
(** [salsa20/src/lib.rs:146-151]; also [XSalsaCore] [xsalsa.rs:28]. *)
Definition salsa_drop (f : features) (st : list N) : list N := if own f then zeroize st else st.
(** [rabbit/src/lib.rs:205-212]; drop glue of [RabbitKeyOnlyCore] and [RabbitCore]. *)
Definition rabbit_drop (f : features) (s : rstate) : rstate :=
  if own f then {| r_x := zeroize (r_x s); r_c := zeroize (r_c s); r_carry := 0 |} else s.
(** [hc-256/src/lib.rs:191-198] *)
Definition hc_drop (f : features) (s : hc) : hc :=
  if own f then {| h_p := zeroize (h_p s); h_q := zeroize (h_q s); h_idx := 0 |} else s.
(** [rc4/src/lib.rs:106-116] *)
Definition rc4_drop (f : features) (s : rc4) : rc4 :=
  if own f then {| k_state := zeroize (k_state s); k_i := 0; k_j := 0 |} else s.

(** Environment contract, [block_buffer::ReadBuffer]: one block, whose first byte holds the
    cursor; with [zeroize] (enabled by [cipher/zeroize]) its [Drop] wipes the block. *)
Definition buffer_mem {S} (w : wrapper S) : list N := N.of_nat (w_cur w) :: tl (w_buf w).
Definition buffer_drop (z : bool) (mem : list N) : list N := if z then zeroize mem else mem.

(** Memory of a dropped [StreamCipherCoreWrapper]: [core], then [buffer]. *)
Definition dropped {S} (mem : S -> list N) (drop : S -> S) (z : bool) (w : wrapper S) : list N :=
  mem (drop (w_core w)) ++ buffer_drop z (buffer_mem w).

Definition crate_of (c : cipher) : crate :=
  match c with
  | CChaCha _ _ _ _ | CXChaCha _ _ _ => CrChaCha
  | CSalsa _ _ _ | CXSalsa _ _ _ => CrSalsa
  | CRabbit _ _ | CRabbitKeyOnly _ => CrRabbit
  | CHc256 _ _ => CrHc256
  | CRc4 _ => CrRc4
  end.

(** Construct, make the calls [h] (as [cipher_run]), drop: the memory left behind.
    Histories that panic are not covered (a panic has no state in this model). *)
Definition after_core {S} (C : score S) (K : option (sseek S)) (m : Res S) (h : list op) (end_ : wrapper S -> list N) : Res (list N) :=
  do st <- m; do (_, w) <- run C K (w_new C st) h; Ok (end_ w).
Definition after_drop (e : env) (f : features) (c : cipher) (h : list op) : Res (list N) :=
  let z := cipher_zeroize (crate_of c) f in
  match c with
  | CChaCha v n key iv =>
      after_core (chacha_score e v n) (Some (chacha_seek v)) (new_internal v key iv) h (dropped words_mem (chacha_drop f) z)
  | CXChaCha n key iv =>
      after_core (chacha_score e Ietf n) (Some (chacha_seek Ietf)) (xchacha_new n key iv) h (dropped words_mem (chacha_drop f) z)
  | CSalsa n key iv =>
      after_core (salsa_score e n) (Some salsa_seek) (Ok (salsa_new key iv)) h (dropped words_mem (salsa_drop f) z)
  | CXSalsa n key iv =>
      after_core (salsa_score e n) (Some salsa_seek) (Ok (xsalsa_new n key iv)) h (dropped words_mem (salsa_drop f) z)
  | CRabbit key iv => after_core (rabbit_score e) None (rabbit_new (e_ck e) key iv) h (dropped rabbit_mem (rabbit_drop f) z)
  | CRabbitKeyOnly key => after_core (rabbit_score e) None (rabbit_key_only (e_ck e) key) h (dropped rabbit_mem (rabbit_drop f) z)
  | CHc256 key iv => after_core (hc_score e) None (hc_new (e_ck e) (2 ^ e_usz e) key iv) h (dropped hc_mem (hc_drop f) z)
  | CRc4 key =>
      do r <- new_from_slice key;
      match r with None => Panic | Some s => do (_, s') <- rc4_run s h; Ok (rc4_mem (rc4_drop f s')) end
  end.

(** [Generator::drop] [chacha20/src/rng.rs:94-99]: called by [BlockRng]'s [Drop] with the
    buffer; the buffer's first word holds the index (environment contract).  Then the
    core is dropped. *)
Definition results_mem (r : rng) : list N := N.of_nat (b_idx r) :: tl (b_res r).
Definition generator_drop (f : features) (output : list N) : list N := if own f then zeroize output else output.
Definition rng_dropped (f : features) (r : rng) : list N :=
  words_mem (chacha_drop f (b_core r)) ++ generator_drop f (results_mem r).

(** ** [Debug] *)
Open Scope string_scope.
(** [Display] of a [usize]; enough for numbers below 1000. *)
Definition digit (n : nat) : string := String (Ascii.ascii_of_nat (48 + n)) "".
Definition dec (n : nat) : string :=
  (if (n <? 100)%nat then "" else digit (n / 100)) ++ (if (n <? 10)%nat then "" else digit (n / 10 mod 10)) ++ digit (n mod 10).

(** [chacha20/src/lib.rs:206-215]; [R::COUNT] is the number of double rounds. *)
Definition chacha_debug (v : variant) (n : nat) (st : list N) : string :=
  "ChaChaCore<R: " ++ dec n ++ ", V: " ++ dec (counter_size v * 8) ++ "-bit)> { ... }".
(** [chacha20/src/xchacha.rs:41-42], [#[derive(Debug)]] on a tuple struct: [{:?}] and
    [{:#?}]. *)
Definition newline : string := String (Ascii.ascii_of_nat 10) "".
Definition xchacha_debug (alternate : bool) (n : nat) (st : list N) : string :=
  if alternate then "XChaChaCore(" ++ newline ++ "    " ++ chacha_debug Ietf n st ++ "," ++ newline ++ ")"
  else "XChaChaCore(" ++ chacha_debug Ietf n st ++ ")".
(** [chacha20/src/rng.rs:187-191]; [name] is [stringify!($Rng)]. *)
Definition rng_debug (name : string) (r : rng) : string := name ++ " { ... }".
(** [hc-256/src/lib.rs:128-132], [AlgorithmName] [:122-126]. *)
Definition hc_debug (s : hc) : string := "Hc256Core { ... }".
