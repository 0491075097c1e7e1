(** Model of [chacha20/src/rng.rs]: [ChaCha8Rng], [ChaCha12Rng], [ChaCha20Rng]
    ([impl_chacha_rng!], :102-340). *)
From Verif Require Export Word Res.
From Verif Require Import ChaChaCore ChaChaDispatch BlockRng SpecRng.   (* SpecRng: only the [rop]/[rret] vocabulary *)

Definition BLOCK_WORDS : N := 16.   (* :28 *)
Definition BUF_BLOCKS : N := 4.     (* :31 *)

(** [struct $Rng { core: BlockRng<ChaChaCore<$rounds, Legacy>> }] :133-135 *)
Definition rng := brng.

(** :142-147 *)
Definition rng_from_seed (seed : list N) : Res rng :=
  do core <- new_internal Legacy seed (repeat 0 8); Ok (b_new core).

(** [:202-212] *)
Definition get_word_pos (r : rng) : N :=
  let block_counter := N.lor (N.shiftl (get (b_core r) 13) 32) (get (b_core r) 12) in
  let block_counter := if (word_offset r =? 0)%nat then block_counter
                       else (block_counter + M64 - BUF_BLOCKS) mod M64 in       (* wrapping_sub *)
  let word_pos := block_counter * BLOCK_WORDS + N.of_nat (word_offset r) in     (* u128 *)
  N.land word_pos (N.shiftl 1 68 - 1).

(** [:251-259]; [counter - 4 + offset/16] in [u64], with or without overflow checks. *)
Definition rng_get_block_pos (ck : bool) (r : rng) : Res N :=
  let counter := get_block_pos Legacy (b_core r) in
  let offset := word_offset r in
  if (offset =? 0)%nat then Ok counter
  else do x <- sub_ck ck M64 counter BUF_BLOCKS;
       add_ck ck M64 x (N.of_nat offset / BLOCK_WORDS).

(** [:242-245] *)
Definition rng_set_block_pos (G : list N -> list N * list N) (r : rng) (pos : N) : Res rng :=
  do r <- reset_and_skip G r 0;
  Ok {| b_core := set_block_pos Legacy (b_core r) pos; b_res := b_res r; b_idx := b_idx r |}.

(** [:224-231] *)
Definition rng_set_word_pos (G : list N -> list N * list N) (r : rng) (word_offset : N) : Res rng :=
  let index := N.to_nat (word_offset mod BLOCK_WORDS) in
  let counter := word_offset / BLOCK_WORDS in
  let core := upd (b_core r) 12 (as_u32 counter) in
  let core := upd core 13 (as_u32 (N.shiftr counter 32)) in
  reset_and_skip G {| b_core := core; b_res := b_res r; b_idx := b_idx r |} index.

(** [:263-267] *)
Definition set_stream (G : list N -> list N * list N) (r : rng) (stream : N) : Res rng :=
  let core := upd (b_core r) 14 (as_u32 stream) in
  let core := upd core 15 (as_u32 (N.shiftr stream 32)) in
  rng_set_block_pos G {| b_core := core; b_res := b_res r; b_idx := b_idx r |} 0.

(** [:272-277] *)
Definition get_stream (r : rng) : N := from_le (to_le 4 (get (b_core r) 14) ++ to_le 4 (get (b_core r) 15)).

(** [:282-289] *)
Definition get_seed (r : rng) : list N := flat_map (to_le 4) (slice (b_core r) 4 8).

(** [:176-182] *)
Fixpoint bytes_eqb (a b : list N) : bool :=
  match a, b with
  | [], [] => true
  | x :: a', y :: b' => (x =? y) && bytes_eqb a' b'
  | _, _ => false
  end.
Definition rng_eq (a b : rng) : bool :=
  bytes_eqb (get_seed a) (get_seed b) && (get_stream a =? get_stream b) && (get_word_pos a =? get_word_pos b).

(** [:297-313]; the [debug_assert_eq!] is on exactly when [ck] is (as in the default
    profiles; they can be set separately). *)
Definition serialize_state (ck : bool) (r : rng) : Res (list N) :=
  let seed := get_seed r in
  let stream := to_le 8 (get_stream r) in
  let word_pos := to_le 16 (get_word_pos r) in
  do _ <- assert_ (negb ck || bytes_eqb (skipn 9 word_pos) (repeat 0 7));
  do _ <- assert_ ((length seed =? 32) && (length stream =? 8))%nat;              (* copy_from_slice *)
  Ok (seed ++ stream ++ firstn 9 word_pos).

(** [:317-337] *)
Definition deserialize_state (G : list N -> list N * list N) (state : list N) : Res rng :=
  let seed := firstn 32 state in
  let stream := firstn 8 (skipn 32 state) in
  let word_pos_raw := skipn 40 state in
  do _ <- assert_ ((length seed =? 32) && (length stream =? 8) && (length word_pos_raw =? 9))%nat;
  let word_pos := from_le (word_pos_raw ++ repeat 0 7) in
  do core <- new_internal Legacy seed stream;
  rng_set_word_pos G (b_new core) word_pos.

(** One call.  [next_u32], [next_u64], [fill_bytes] of [TryRng] [:154-165] are those of
    [BlockRng]. *)
Definition rng_step (G : list N -> list N * list N) (ck : bool) (r : rng) (o : rop) : Res (rret * rng) :=
  match o with
  | NextU32 => let (x, r') := next_word G r in Ok (Num x, r')
  | NextU64 => let (x, r') := next_u64 G r in Ok (Num x, r')
  | Fill n => let (l, r') := fill_bytes G r n in Ok (Buf l, r')
  | GetWordPos => Ok (Num (get_word_pos r), r)
  | SetWordPos p => do r' <- rng_set_word_pos G r p; Ok (Unit, r')
  | GetBlockPos => do b <- rng_get_block_pos ck r; Ok (Num b, r)
  | SetBlockPos b => do r' <- rng_set_block_pos G r b; Ok (Unit, r')
  | GetStream => Ok (Num (get_stream r), r)
  | SetStream s => do r' <- set_stream G r s; Ok (Unit, r')
  | GetSeed => Ok (Buf (get_seed r), r)
  | Serialize => do l <- serialize_state ck r; Ok (Buf l, r)
  end.
Fixpoint rng_run (G : list N -> list N * list N) (ck : bool) (r : rng) (h : list rop) : Res (list rret * rng) :=
  match h with
  | [] => Ok ([], r)
  | o :: h' => do (x, r1) <- rng_step G ck r o; do (xs, r2) <- rng_run G ck r1 h'; Ok (x :: xs, r2)
  end.
(** The generator's refill in a given build and on a given CPU. *)
Definition rng_gen (c : config) (p : cpu) (n : nat) : list N -> list N * list N := generate c p Legacy n.
