(** Leakage-instrumented versions of the generators' interface ([chacha20/src/rng.rs],
    [ChaChaRng.v]) and of the [BlockRng] under it ([BlockRng.v], environment).  Same leakage
    model as [LeakageRes.v]: branch outcomes, array indices and addresses, in program order. *)
From Verif Require Export Word Res.
From Verif Require Import SpecRng ChaChaCore ChaChaDispatch BlockRng ChaChaRng Leakage LeakageRes LeakageSimd.

(** A part without panics, from [Leakage.v]. *)
Definition lift {A} (m : L A) : LR A := (Ok (value m), trace m).

(** ** [Generator::generate] ([rng.rs:48-91]) *)
(** The CPU features are read from a cache; what is read does not depend on the state.
    [buf] is the memory of the results before the call. *)
Definition generate_lk (c : config) (p : cpu) (n : nat) (st buf : list N) : LR (list N * list N) :=
  let soft := lift (l_soft_gen_ks_blocks n st) in
  let words (m : LR (list N * list N)) : LR (list N * list N) := dol (mem, st') <- m; rret (words_of_bytes mem, st') in
  let avx2 := words (avx2_rng_inner_lk n st (bytes_of_words buf)) in
  let sse2 := words (sse2_rng_inner_lk Legacy n st (bytes_of_words buf)) in
  let neon := words (neon_rng_inner_lk Legacy n st (bytes_of_words buf)) in
  match c_backend c with
  | CfgSoft => soft
  | b =>
    match c_target c with
    | X86 =>
      match b with
      | CfgAvx2 | CfgAvx512 => avx2
      | CfgSse2 => sse2
      | _ => dol b <- r_branch (has_avx2 p);
             if b then avx2 else dol b <- r_branch (has_sse2 p); if b then sse2 else soft
      end
    | Aarch64Neon => neon
    | _ => soft
    end
  end.

Section Interface.
  Context (G : list N -> list N -> LR (list N * list N)).

  (** ** [BlockRng] *)
  Definition word_offset_lk (b : brng) : LR nat :=
    dol e <- r_branch (b_idx b =? BUFFER_SIZE)%nat; rret (if e then 0%nat else b_idx b).
  Definition reset_and_skip_lk (b : brng) (n : nat) : LR brng :=
    dol z <- r_branch (n =? 0)%nat;
    if z then rret {| b_core := b_core b; b_res := b_res b; b_idx := BUFFER_SIZE |}
    else dol _ <- r_assert (n <? BUFFER_SIZE)%nat;
         dol (res, core) <- G (b_core b) (b_res b);
         rret {| b_core := core; b_res := res; b_idx := n |}.
  Definition refill_lk (b : brng) : LR brng :=
    dol e <- r_branch (BUFFER_SIZE <=? b_idx b)%nat;
    if e then dol (res, core) <- G (b_core b) (b_res b); rret {| b_core := core; b_res := res; b_idx := 0 |}
    else rret b.
  Definition next_word_lk (b : brng) : LR (N * brng) :=
    dol b <- refill_lk b;
    dol x <- r_get (b_res b) (b_idx b);
    rret (x, {| b_core := b_core b; b_res := b_res b; b_idx := S (b_idx b) |}).
  Definition next_u64_lk (b : brng) : LR (N * brng) :=
    let read res i := dol hi <- r_get res (S i); dol lo <- r_get res i; rret (N.lor (N.shiftl hi 32) lo) in
    let index := b_idx b in
    dol e <- r_branch (index <? BUFFER_SIZE - 1)%nat;
    if e then dol x <- read (b_res b) index; rret (x, {| b_core := b_core b; b_res := b_res b; b_idx := index + 2 |})
    else
      dol e <- r_branch (BUFFER_SIZE <=? index)%nat;
      if e then dol (res, core) <- G (b_core b) (b_res b); dol x <- read res 0%nat; rret (x, {| b_core := core; b_res := res; b_idx := 2 |})
      else dol x <- r_get (b_res b) (BUFFER_SIZE - 1);
           dol (res, core) <- G (b_core b) (b_res b);
           dol y <- r_get res 0;
           rret (N.lor (N.shiftl y 32) x, {| b_core := core; b_res := res; b_idx := 1 |}).
  (** The copy reads the words of the chunk one after the other. *)
  Fixpoint fill_loop_lk (fuel : nat) (b : brng) (len : nat) : LR (list N * brng) :=
    match fuel with
    | O => rret ([], b)
    | S fuel =>
        dol z <- r_branch (len =? 0)%nat;
        if z then rret ([], b)
        else dol b <- refill_lk b;
             let words := skipn (b_idx b) (b_res b) in
             let filled := Nat.min (4 * length words) len in
             let consumed := ((filled + 3) / 4)%nat in
             dol chunk <- leak (map Rd (seq (b_idx b) consumed)) (Ok (firstn filled (bytes_of_words words)));
             dol (rest, b) <- fill_loop_lk fuel {| b_core := b_core b; b_res := b_res b; b_idx := b_idx b + consumed |} (len - filled);
             rret (chunk ++ rest, b)
    end.

  (** ** [rng.rs] *)
  (** [:202-212] *)
  Definition get_word_pos_lk (r : rng) : LR N :=
    dol hi <- r_get (b_core r) 13; dol lo <- r_get (b_core r) 12;
    let block_counter := N.lor (N.shiftl hi 32) lo in
    dol o <- word_offset_lk r;
    dol z <- r_branch (o =? 0)%nat;
    let block_counter := if z : bool then block_counter else (block_counter + M64 - BUF_BLOCKS) mod M64 in
    dol o <- word_offset_lk r;
    rret (N.land (block_counter * BLOCK_WORDS + N.of_nat o) (N.shiftl 1 68 - 1)).
  (** [:251-259] *)
  Definition rng_get_block_pos_lk (ck : bool) (r : rng) : LR N :=
    dol counter <- lift (l_get_block_pos Legacy (b_core r));
    dol offset <- word_offset_lk r;
    dol z <- r_branch (offset =? 0)%nat;
    if z then rret counter
    else dol x <- r_sub ck M64 counter BUF_BLOCKS; r_add ck M64 x (N.of_nat offset / BLOCK_WORDS).
  (** [:242-245] *)
  Definition rng_set_block_pos_lk (r : rng) (pos : N) : LR rng :=
    dol r <- reset_and_skip_lk r 0;
    dol core <- lift (l_set_block_pos Legacy (b_core r) pos);
    rret {| b_core := core; b_res := b_res r; b_idx := b_idx r |}.
  (** [:224-231] *)
  Definition rng_set_word_pos_lk (r : rng) (word_offset : N) : LR rng :=
    let index := N.to_nat (word_offset mod BLOCK_WORDS) in
    let counter := word_offset / BLOCK_WORDS in
    dol core <- r_upd (b_core r) 12 (as_u32 counter);
    dol core <- r_upd core 13 (as_u32 (N.shiftr counter 32));
    reset_and_skip_lk {| b_core := core; b_res := b_res r; b_idx := b_idx r |} index.
  (** [:263-267] *)
  Definition set_stream_lk (r : rng) (stream : N) : LR rng :=
    dol core <- r_upd (b_core r) 14 (as_u32 stream);
    dol core <- r_upd core 15 (as_u32 (N.shiftr stream 32));
    rng_set_block_pos_lk {| b_core := core; b_res := b_res r; b_idx := b_idx r |} 0.
  (** [:272-277] *)
  Definition get_stream_lk (r : rng) : LR N :=
    dol a <- r_get (b_core r) 14; dol b <- r_get (b_core r) 15; rret (from_le (to_le 4 a ++ to_le 4 b)).
  (** [:282-289]: eight words, four bytes each. *)
  Definition get_seed_lk (r : rng) : LR (list N) :=
    r_for (seq 0 8) (fun i out => dol w <- r_get (slice (b_core r) 4 8) i;
                                  leak [Wr (4 * i)] (Ok (out ++ to_le 4 w))) [].
  (** [:297-313]; the comparison of the [debug_assert_eq!] is byte by byte. *)
  Fixpoint same_bytes_lk (i : nat) (a b : list N) : LR bool :=
    match a, b with
    | [], [] => leak [Br false] (Ok true)
    | x :: a', y :: b' => dol _ <- leak [Br true; Rd i] (Ok tt); dol e <- r_branch (x =? y); if e then same_bytes_lk (S i) a' b' else rret false
    | _, _ => rret false
    end.
  Definition serialize_state_lk (ck : bool) (r : rng) : LR (list N) :=
    dol seed <- get_seed_lk r;
    dol s <- get_stream_lk r; let stream := to_le 8 s in
    dol p <- get_word_pos_lk r; let word_pos := to_le 16 p in
    dol _ <- (if ck then dol e <- same_bytes_lk 0 (skipn 9 word_pos) (repeat 0 7); r_assert e else rret tt);
    dol _ <- r_assert ((length seed =? 32) && (length stream =? 8))%nat;
    rret (seed ++ stream ++ firstn 9 word_pos).
  (** [:317-337] *)
  Definition deserialize_state_lk (state : list N) : LR rng :=
    let seed := firstn 32 state in
    let stream := firstn 8 (skipn 32 state) in
    let word_pos_raw := skipn 40 state in
    dol _ <- r_assert ((length seed =? 32) && (length stream =? 8) && (length word_pos_raw =? 9))%nat;
    let word_pos := from_le (word_pos_raw ++ repeat 0 7) in
    dol core <- (value (l_new_internal Legacy seed stream), trace (l_new_internal Legacy seed stream));
    rng_set_word_pos_lk (b_new core) word_pos.
  (** [:142-147] *)
  Definition rng_from_seed_lk (seed : list N) : LR rng :=
    dol core <- (value (l_new_internal Legacy seed (repeat 0 8)), trace (l_new_internal Legacy seed (repeat 0 8)));
    rret (b_new core).

  (** One call, and a history of calls. *)
  Definition rng_step_lk (ck : bool) (r : rng) (o : rop) : LR (SpecRng.rret * rng) :=
    match o with
    | NextU32 => dol (x, r') <- next_word_lk r; rret (Num x, r')
    | NextU64 => dol (x, r') <- next_u64_lk r; rret (Num x, r')
    | Fill n => dol (l, r') <- fill_loop_lk n r n; rret (Buf l, r')
    | GetWordPos => dol x <- get_word_pos_lk r; rret (Num x, r)
    | SetWordPos p => dol r' <- rng_set_word_pos_lk r p; rret (Unit, r')
    | GetBlockPos => dol b <- rng_get_block_pos_lk ck r; rret (Num b, r)
    | SetBlockPos b => dol r' <- rng_set_block_pos_lk r b; rret (Unit, r')
    | GetStream => dol x <- get_stream_lk r; rret (Num x, r)
    | SetStream s => dol r' <- set_stream_lk r s; rret (Unit, r')
    | GetSeed => dol l <- get_seed_lk r; rret (Buf l, r)
    | Serialize => dol l <- serialize_state_lk ck r; rret (Buf l, r)
    end.
  Fixpoint rng_run_lk (ck : bool) (r : rng) (h : list rop) : LR (list SpecRng.rret * rng) :=
    match h with
    | [] => rret ([], r)
    | o :: h' => dol (x, r1) <- rng_step_lk ck r o; dol (xs, r2) <- rng_run_lk ck r1 h'; rret (x :: xs, r2)
    end.

  (** ** [PartialEq] ([:176-182]) *)
  (** [==] on [[u8; 32]] is a call of the compiler's memory comparison, whose timing the
      language does not fix.  [cmp] is that comparison: [same_bytes_lk 0] stops at the first
      difference; [at_once] leaks its result only. *)
  Definition at_once (a b : list N) : LR bool := rret (bytes_eqb a b).
  Definition rng_eq_lk (cmp : list N -> list N -> LR bool) (a b : rng) : LR bool :=
    dol s1 <- get_seed_lk a; dol s2 <- get_seed_lk b;
    dol e <- cmp s1 s2; dol e <- r_branch e;
    if e then
      dol s1 <- get_stream_lk a; dol s2 <- get_stream_lk b;
      dol e <- r_branch (s1 =? s2);
      if e then dol p1 <- get_word_pos_lk a; dol p2 <- get_word_pos_lk b; rret (p1 =? p2)
      else rret false
    else rret false.
End Interface.
