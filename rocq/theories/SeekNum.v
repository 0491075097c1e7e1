(** Positions as Rust integers: [cipher::SeekNum] (cipher 0.5.2), implemented there for
    [i32], [u32], [u64], [u128] and [usize] by one macro.  Environment contract, like
    [CipherWrapper.v]; used by every seekable cipher of the repository through
    [StreamCipherSeek] ([chacha20/src/lib.rs:218-231], [chacha20/src/xchacha.rs:69-93],
    [salsa20/src/lib.rs:120-144], [salsa20/src/xsalsa.rs:52-76]).

    [CipherWrapper.try_seek] and [try_current_pos] are the unsigned case; here the value is
    an integer of any of the five types, possibly negative. *)
From Verif Require Export Ciphers.
From Verif Require Import SpecStream ChaChaCore XChaCha CipherWrapper Salsa.
From Coq Require Import ZArith.
Open Scope Z_scope.

(** The implementors of [SeekNum]. *)
Inductive int_ty := I32 | U32 | U64 | U128 | Usize.
(** [T::MIN], [T::MAX]; [usz] is the width of [usize]. *)
Definition ty_min (t : int_ty) : Z := match t with I32 => - 2 ^ 31 | _ => 0 end.
Definition ty_max (usz : N) (t : int_ty) : Z :=
  match t with
  | I32 => 2 ^ 31 - 1 | U32 => 2 ^ 32 - 1 | U64 => 2 ^ 64 - 1 | U128 => 2 ^ 128 - 1
  | Usize => 2 ^ Z.of_N usz - 1
  end.

(** [SeekNum::into_block_byte]: [let byte = self % bs; let block = T::try_from(self / bs)?;
    Ok((block, byte as u8))], [T] the counter type with [cmod] values.  Rust's [/] and [%]
    truncate towards zero. *)
Definition into_block_byte (bs cmod : N) (z : Z) : option (N * N) :=
  let byte := Z.rem z (Z.of_N bs) in
  let block := Z.quot z (Z.of_N bs) in
  if (0 <=? block) && (block <? Z.of_N cmod) then Some (Z.to_N block, Z.to_N (byte mod 256)) else None.
(** [SeekNum::from_block_byte]: [let rem = bs.checked_sub(byte)?;
    Self::try_from(block)?.checked_mul(bs)?.checked_sub(rem)]. *)
Definition from_block_byte (usz : N) (t : int_ty) (block : N) (byte bs : N) : option Z :=
  if (byte <=? bs)%N
  then let rem := Z.of_N (bs - byte) in
       if Z.of_N block <=? ty_max usz t
       then let v := Z.of_N block * Z.of_N bs in
            if v <=? ty_max usz t
            then if ty_min t <=? v - rem then Some (v - rem) else None
            else None
       else None
  else None.

Section Typed.
  Context {S : Type} (C : score S) (K : sseek S).
  Let bs := N.of_nat (sc_bs C).
  (** [StreamCipherSeek::try_seek::<T>]: [let (block_pos, byte_pos) = new_pos.into_block_byte(bs)?;
      assert!(byte_pos < bs)]; set the counter, and generate the block when needed. *)
  Definition try_seek_z (w : wrapper S) (z : Z) : Res (option (wrapper S)) :=
    match into_block_byte bs (sk_mod K) z with
    | None => Ok None
    | Some (block, byte) =>
        do _ <- assert_ (byte <? bs)%N;
        do (_, w') <- write_block C (sk_set K (w_core w) block) (w_buf w) (sc_bs C) (N.to_nat byte); Ok (Some w')
    end.
  (** [StreamCipherSeek::try_current_pos::<T>]. *)
  Definition try_current_pos_z (usz : N) (t : int_ty) (w : wrapper S) : option Z :=
    from_block_byte usz t (sk_get K (w_core w)) (N.of_nat (w_cur w)) bs.
End Typed.

(** Calls with typed positions; what they return. *)
Inductive top := Plain (o : op) | TSeek (t : int_ty) (z : Z) | TPos (t : int_ty).
Inductive tret := Ans (r : ret) | At (z : Z).

Definition tstep {S} (C : score S) (K : sseek S) (usz : N) (w : wrapper S) (o : top) : Res (tret * wrapper S) :=
  match o with
  | Plain o => do (r, w') <- step C (Some K) w o; Ok (Ans r, w')
  | TSeek _ z => do r <- try_seek_z C K w z;
                 match r with Some w' => Ok (Ans Done, w') | None => Ok (Ans Err, w) end
  | TPos t => match try_current_pos_z C K usz t w with Some z => Ok (At z, w) | None => Ok (Ans Err, w) end
  end.
Fixpoint trun {S} (C : score S) (K : sseek S) (usz : N) (w : wrapper S) (h : list top) : Res (list tret) :=
  match h with
  | [] => Ok []
  | o :: h' => do (r, w1) <- tstep C K usz w o; do rs <- trun C K usz w1 h'; Ok (r :: rs)
  end.
(** A fresh cipher driven through a history.  The ciphers without [StreamCipherSeekCore]
    have no such calls. *)
Definition typed_run (e : env) (c : cipher) (h : list top) : Res (list tret) :=
  let go {S} (C : score S) K (m : Res S) := do st <- m; trun C K (e_usz e) (w_new C st) h in
  match c with
  | CChaCha v n key iv => go (chacha_score e v n) (chacha_seek v) (new_internal v key iv)
  | CXChaCha n key iv => go (chacha_score e Ietf n) (chacha_seek Ietf) (xchacha_new n key iv)
  | CSalsa n key iv => go (salsa_score e n) salsa_seek (Ok (salsa_new key iv))
  | CXSalsa n key iv => go (salsa_score e n) salsa_seek (Ok (xsalsa_new n key iv))
  | _ => Panic
  end.
