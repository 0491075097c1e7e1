(** Declared key, IV and block sizes, and construction from slices.

    [cipher::KeyIvInit::new_from_slices], [KeyInit::new_from_slice] (environment contract,
    cipher 0.5.2): the slices must convert to [Array]s of exactly the declared sizes,
    otherwise [Err(InvalidLength)]; then [new].  [StreamCipherCoreWrapper<T>] takes its
    sizes from [T]. *)
From Verif Require Export Word Res.
From Verif Require Import SpecStream ChaChaCore CipherWrapper Salsa Rabbit Hc256 Rc4 Ciphers.

(** The public types; [n] is the number of double rounds. *)
Inductive ty := TChaCha (n : nat) | TLegacy (n : nat) | TXChaCha (n : nat) | TSalsa (n : nat) | TXSalsa (n : nat)
  | TRabbit | TRabbitKeyOnly | THc256 | TRc4.

(** [KeySizeUser::KeySize]: [chacha20/src/chacha.rs:27], [chacha20/src/legacy.rs:20],
    [chacha20/src/xchacha.rs:45], [salsa20/src/lib.rs:77], [salsa20/src/xsalsa.rs:31],
    [rabbit/src/lib.rs:220] ([RabbitCore] takes it from its [Inner], [:257-259]),
    [hc-256/src/lib.rs:52], [rc4/src/lib.rs:48]. *)
Definition key_size (t : ty) : nat :=
  match t with TRabbit | TRabbitKeyOnly => 16 | _ => 32 end.
(** [IvSizeUser::IvSize] ([None]: the type has no IV): [chacha20/src/chacha.rs:31],
    [chacha20/src/legacy.rs:24], [chacha20/src/xchacha.rs:49], [salsa20/src/lib.rs:81],
    [salsa20/src/xsalsa.rs:35], [rabbit/src/lib.rs:262], [hc-256/src/lib.rs:56]. *)
Definition iv_size (t : ty) : option nat :=
  match t with
  | TChaCha _ => Some 12%nat
  | TLegacy _ | TSalsa _ | TRabbit => Some 8%nat
  | TXChaCha _ | TXSalsa _ => Some 24%nat
  | THc256 => Some 32%nat
  | TRabbitKeyOnly | TRc4 => None
  end.
(** [BlockSizeUser::BlockSize]: [chacha20/src/lib.rs:303], [chacha20/src/xchacha.rs:53],
    [salsa20/src/lib.rs:85], [salsa20/src/xsalsa.rs:39], [rabbit/src/lib.rs:42],
    [hc-256/src/lib.rs:48], [rc4/src/lib.rs:80]. *)
Definition block_size (t : ty) : nat :=
  match t with TRabbit | TRabbitKeyOnly => 16 | THc256 => 4 | TRc4 => 1 | _ => 64 end.

(** [KeyIvInit::new]/[KeyInit::new] of the types. *)
Definition new_of (t : ty) (key iv : list N) : cipher :=
  match t with
  | TChaCha n => CChaCha Ietf n key iv
  | TLegacy n => CChaCha Legacy n key iv
  | TXChaCha n => CXChaCha n key iv
  | TSalsa n => CSalsa n key iv
  | TXSalsa n => CXSalsa n key iv
  | TRabbit => CRabbit key iv
  | TRabbitKeyOnly => CRabbitKeyOnly key
  | THc256 => CHc256 key iv
  | TRc4 => CRc4 key
  end.
(** [T::new_from_slices(key, iv)] ([T::new_from_slice(key)] for a type without IV, the
    argument [iv] is then ignored), followed by the calls [h]; [Ok None] is
    [Err(InvalidLength)].  RC4 overrides the provided method ([rc4/src/lib.rs:58-76]). *)
Definition slices_run (e : env) (t : ty) (key iv : list N) (h : list op) : Res (option (list ret)) :=
  match t with
  | TRc4 =>
      do r <- new_from_slice key;
      match r with None => Ok None | Some s => do (rs, _) <- rc4_run s h; Ok (Some rs) end
  | _ =>
      if ((length key =? key_size t) && match iv_size t with None => true | Some n => (length iv =? n) end)%nat
      then do rs <- cipher_run e (new_of t key iv) h; Ok (Some rs)
      else Ok None
  end.
(** [Rc4::new], for a key of the declared size, followed by the calls [h]
    [rc4/src/lib.rs:53-55]. *)
Definition rc4_new_run (key : list N) (h : list op) : Res (list ret) :=
  do s <- rc4_new key; do (rs, _) <- rc4_run s h; Ok rs.
