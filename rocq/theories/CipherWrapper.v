(** Environment contract: [cipher::StreamCipherCoreWrapper] (cipher 0.5.2) over
    [block_buffer::ReadBuffer] (block-buffer 0.12.1).  Neither crate is in the
    repository; they are modelled from their documented behaviour.  All ciphers of the
    repository except RC4 are type aliases of this wrapper around their core, e.g.
    [chacha20/src/chacha.rs:17-27], [salsa20/src/lib.rs], [rabbit/src/lib.rs:45-47],
    [hc-256/src/lib.rs:38]; [rc4/src/lib.rs] implements the trait directly ([Rc4.v]).

    Simplifications: "apply" is "write the keystream, then XOR" (the closures of
    [cipher] generate a block into a temporary and XOR it; [InOut.v] and C88 remove this
    simplification); a result [None] is
    [Err(StreamCipherError)] / [Err(OverflowError)]; the cursor is a field and not the
    first byte of the block ([Packed.v] and C86 remove this simplification). *)
From Verif Require Export Word Res.
From Verif Require Import SpecStream.   (* only for the [op]/[ret] vocabulary *)

(** [StreamCipherCore]: block size, [write_keystream_blocks] on [k] blocks,
    [remaining_blocks]. *)
Record score (S : Type) := {
  sc_bs : nat;
  sc_gen : nat -> S -> Res (list N * S);
  sc_rem : S -> option N
}.
Arguments sc_bs {S}. Arguments sc_gen {S}. Arguments sc_rem {S}.
(** [StreamCipherSeekCore]: number of values of [Counter], [get/set_block_pos]. *)
Record sseek (S : Type) := {
  sk_mod : N;
  sk_get : S -> N;
  sk_set : S -> N -> S
}.
Arguments sk_mod {S}. Arguments sk_get {S}. Arguments sk_set {S}.

(** [StreamCipherCoreWrapper { core, buffer }]; [buffer] is a [ReadBuffer]: a block and
    a cursor in [1..=BS], [BS] meaning exhausted. *)
Record wrapper (S : Type) := { w_core : S; w_buf : list N; w_cur : nat }.
Arguments w_core {S}. Arguments w_buf {S}. Arguments w_cur {S}. Arguments Build_wrapper {S}.

Section Wrapper.
  Context {S : Type} (C : score S).
  Let bs := sc_bs C.

  (** [StreamCipherCoreWrapper::from_core] / [KeyIvInit::new]. *)
  Definition w_new (st : S) : wrapper S := Build_wrapper st (repeat 0 bs) bs.

  (** [ReadBuffer::remaining]. *)
  Definition buf_rem (w : wrapper S) : nat := bs - w_cur w.
  (** [ReadBuffer::read_cached(len)]: what it returns; the new cursor. *)
  Definition read_cached (w : wrapper S) (len : nat) : list N * nat :=
    let n := Nat.min (buf_rem w) len in (slice (w_buf w) (w_cur w) n, (w_cur w + n)%nat).
  (** [ReadBuffer::write_block(read_len, gen, read)]: bytes read, new wrapper. *)
  Definition write_block (st : S) (buf : list N) (cur : nat) (read_len : nat) : Res (list N * wrapper S) :=
    if (read_len =? 0)%nat then Ok ([], Build_wrapper st buf cur)
    else do _ <- assert_ (read_len <? bs)%nat;
         do (blk, st') <- sc_gen C 1 st;
         Ok (firstn read_len blk, Build_wrapper st' blk read_len).

  (** [StreamCipherCoreWrapper::check_remaining]. *)
  Definition check_remaining (w : wrapper S) (len : nat) : bool :=
    match sc_rem C (w_core w) with
    | None => true
    | Some rem_blocks =>
        if (len <=? buf_rem w)%nat then true
        else let blocks := ((len - buf_rem w + bs - 1) / bs)%nat in
             N.of_nat blocks <=? rem_blocks
    end.

  (** [unchecked_write_keystream]: cached head, whole blocks from the core, buffered tail. *)
  Definition unchecked_write (w : wrapper S) (len : nat) : Res (list N * wrapper S) :=
    let (head, cur) := read_cached w len in
    let rest := (len - length head)%nat in
    do (body, st) <- sc_gen C (rest / bs) (w_core w);
    do (tail, w') <- write_block st (w_buf w) cur (rest mod bs);
    Ok (head ++ body ++ tail, w').
  (** [unchecked_apply_keystream_inout]. *)
  Definition unchecked_apply (w : wrapper S) (d : list N) : Res (list N * wrapper S) :=
    do (k, w') <- unchecked_write w (length d); Ok (xorb_list d k, w').

  (** [StreamCipher::try_write_keystream], [try_apply_keystream], [apply_keystream_b2b]. *)
  Definition try_write (w : wrapper S) (len : nat) : Res (option (list N * wrapper S)) :=
    if check_remaining w len then do r <- unchecked_write w len; Ok (Some r) else Ok None.
  Definition try_apply (w : wrapper S) (d : list N) : Res (option (list N * wrapper S)) :=
    if check_remaining w (length d) then do r <- unchecked_apply w d; Ok (Some r) else Ok None.
  Definition apply_b2b (w : wrapper S) (d : list N) (out_len : nat) : Res (option (list N * wrapper S)) :=
    if (length d =? out_len)%nat then try_apply w d else Ok None.
  (** [StreamCipher::apply_keystream]: panics on error. *)
  Definition apply_keystream (w : wrapper S) (d : list N) : Res (list N * wrapper S) :=
    do r <- try_apply w d; match r with Some x => Ok x | None => Panic end.

  Context (K : sseek S).
  (** [StreamCipherSeek::try_seek] for an unsigned [SeekNum]. *)
  Definition try_seek (w : wrapper S) (p : N) : Res (option (wrapper S)) :=
    let byte := N.to_nat (p mod N.of_nat bs) in
    let block := p / N.of_nat bs in
    if block <? sk_mod K
    then do (_, w') <- write_block (sk_set K (w_core w) block) (w_buf w) bs byte; Ok (Some w')
    else Ok None.
  (** [StreamCipherSeek::try_current_pos::<T>], [T] unsigned with values below [tmax]
      ([SeekNum::from_block_byte]: [try_into], [checked_mul], [checked_sub]). *)
  Definition try_current_pos (w : wrapper S) (tmax : N) : option N :=
    let rem := N.of_nat (buf_rem w) in
    let block := sk_get K (w_core w) in
    if (block <? tmax) && (block * N.of_nat bs <? tmax) && (rem <=? block * N.of_nat bs)
    then Some (block * N.of_nat bs - rem) else None.

End Wrapper.

(** One user call; a cipher without seeking answers [Err] to [Seek]/[CurPos] (such calls
    do not type-check in Rust). *)
Definition step {S} (C : score S) (K : option (sseek S)) (w : wrapper S) (o : op) : Res (ret * wrapper S) :=
  let lift m := do r <- m; match r with Some (b, w') => Ok (Bytes b, w') | None => Ok (Err, w) end in
  match o with
  | Apply d => lift (try_apply C w d)
  | ApplyB2b d m => lift (apply_b2b C w d m)
  | Write n => lift (try_write C w n)
  | Seek p => match K with
              | None => Ok (Err, w)
              | Some K => do r <- try_seek C K w p;
                          match r with Some w' => Ok (Done, w') | None => Ok (Err, w) end
              end
  | CurPos t => match K with
                | None => Ok (Err, w)
                | Some K => match try_current_pos C K w t with Some p => Ok (Pos p, w) | None => Ok (Err, w) end
                end
  end.
Fixpoint run {S} (C : score S) (K : option (sseek S)) (w : wrapper S) (h : list op) : Res (list ret * wrapper S) :=
  match h with
  | [] => Ok ([], w)
  | o :: h' => do (r, w1) <- step C K w o; do (rs, w2) <- run C K w1 h'; Ok (r :: rs, w2)
  end.
