(** The two buffers of the environment contract as they lie in memory.

    [block_buffer::ReadBuffer] keeps its cursor in the first byte of the block and
    [rand_core::block::BlockRng] its index in the first word of the results (both crates are
    outside the repository; modelled from their documented behaviour).  [CipherWrapper.v] and
    [BlockRng.v] simplify this to a separate field; here the same operations are written on the
    packed buffers.  [ReadBuffer::get_pos] tells the compiler that the cursor is in
    [1..=BS] ([unreachable_unchecked]): anything else is undefined behaviour. *)
From Verif Require Export Word Res.
From Verif Require Import SpecStream ChaChaCore ChaChaDispatch XChaCha CipherWrapper Salsa Rabbit Hc256 Rc4 Ciphers BlockRng SpecRng ChaChaRng.

Inductive out (A : Type) : Type :=
| Fine (a : A)
| Panics
| Undef.
Arguments Fine {A} a. Arguments Panics {A}. Arguments Undef {A}.
Definition obind {A B} (m : out A) (f : A -> out B) : out B := match m with Fine a => f a | Panics => Panics | Undef => Undef end.
Notation "'doo' x <- m ; f" := (obind m (fun x => f)) (at level 200, x pattern, m at level 100, f at level 200).
Definition res {A} (m : Res A) : out A := match m with Ok a => Fine a | Panic => Panics end.

(** ** [ReadBuffer] under [StreamCipherCoreWrapper] *)
(** Core and block; byte 0 of the block is the cursor. *)
Definition packed (S : Type) : Type := (S * list N)%type.
Section Wrapper.
  Context {S : Type} (C : score S).
  Let bs := sc_bs C.

  (** [ReadBuffer::get_pos], [set_pos_unchecked] ([pos as u8]), [default], [reset]. *)
  Definition get_pos (buf : list N) : out nat :=
    let pos := N.to_nat (get buf 0) in if (pos =? 0)%nat || (bs <? pos)%nat then Undef else Fine pos.
  Definition set_pos (buf : list N) (pos : nat) : list N := upd buf 0 (N.of_nat pos mod 256).
  Definition p_new (st : S) : packed S := (st, set_pos (repeat 0 bs) bs).

  (** [remaining], [read_cached]: the cursor is moved first, then the slice taken. *)
  Definition p_rem (p : packed S) : out nat := doo pos <- get_pos (snd p); Fine (bs - pos)%nat.
  Definition p_read_cached (buf : list N) (len : nat) : out (list N * list N) :=
    doo pos <- get_pos buf;
    let n := Nat.min (bs - pos) len in
    let buf := set_pos buf (pos + n) in
    Fine (slice buf pos n, buf).
  (** [write_block]: the block is generated over the whole buffer, the head of it read, and
      then the cursor written over its first byte. *)
  Definition p_write_block (st : S) (buf : list N) (read_len : nat) : out (list N * packed S) :=
    if (read_len =? 0)%nat then Fine ([], (st, buf))
    else doo _ <- res (assert_ (read_len <? bs)%nat);
         doo (blk, st') <- res (sc_gen C 1 st);
         Fine (firstn read_len blk, (st', set_pos blk read_len)).

  (** The wrapper's methods, as in [CipherWrapper.v]. *)
  Definition p_check (p : packed S) (len : nat) : out bool :=
    match sc_rem C (fst p) with
    | None => Fine true
    | Some rem_blocks =>
        doo rem <- p_rem p;
        if (len <=? rem)%nat then Fine true
        else Fine (N.of_nat ((len - rem + bs - 1) / bs)%nat <=? rem_blocks)
    end.
  Definition p_write (p : packed S) (len : nat) : out (list N * packed S) :=
    doo (head, buf) <- p_read_cached (snd p) len;
    let rest := (len - length head)%nat in
    doo (body, st) <- res (sc_gen C (rest / bs) (fst p));
    doo (tail, p') <- p_write_block st buf (rest mod bs);
    Fine (head ++ body ++ tail, p').
  Definition p_try_write (p : packed S) (len : nat) : out (option (list N * packed S)) :=
    doo ok <- p_check p len; if ok then doo r <- p_write p len; Fine (Some r) else Fine None.
  Definition p_try_apply (p : packed S) (d : list N) : out (option (list N * packed S)) :=
    doo ok <- p_check p (length d);
    if ok then doo (k, p') <- p_write p (length d); Fine (Some (xorb_list d k, p')) else Fine None.
  Definition p_seek (K : sseek S) (p : packed S) (q : N) : out (option (packed S)) :=
    let byte := N.to_nat (q mod N.of_nat bs) in
    let block := q / N.of_nat bs in
    if block <? sk_mod K
    then doo (_, p') <- p_write_block (sk_set K (fst p) block) (set_pos (snd p) bs) byte; Fine (Some p')
    else Fine None.
  Definition p_current (K : sseek S) (p : packed S) (tmax : N) : out (option N) :=
    doo r <- p_rem p;
    let rem := N.of_nat r in
    let block := sk_get K (fst p) in
    Fine (if (block <? tmax) && (block * N.of_nat bs <? tmax) && (rem <=? block * N.of_nat bs)
          then Some (block * N.of_nat bs - rem) else None).
  Definition p_step (K : option (sseek S)) (p : packed S) (o : op) : out (ret * packed S) :=
    let lift m := doo r <- m; match r with Some (b, p') => Fine (Bytes b, p') | None => Fine (Err, p) end in
    match o with
    | Apply d => lift (p_try_apply p d)
    | ApplyB2b d m => if (length d =? m)%nat then lift (p_try_apply p d) else Fine (Err, p)
    | Write n => lift (p_try_write p n)
    | Seek q => match K with
                | None => Fine (Err, p)
                | Some K => doo r <- p_seek K p q; match r with Some p' => Fine (Done, p') | None => Fine (Err, p) end
                end
    | CurPos t => match K with
                  | None => Fine (Err, p)
                  | Some K => doo r <- p_current K p t; match r with Some q => Fine (Pos q, p) | None => Fine (Err, p) end
                  end
    end.
  Fixpoint p_run (K : option (sseek S)) (p : packed S) (h : list op) : out (list ret * packed S) :=
    match h with
    | [] => Fine ([], p)
    | o :: h' => doo (r, p1) <- p_step K p o; doo (rs, p2) <- p_run K p1 h'; Fine (r :: rs, p2)
    end.
End Wrapper.

(** Construct, make the calls: the answers, and the block left in the buffer.  RC4 has no
    buffer. *)
Definition p_core {S} (C : score S) (K : option (sseek S)) (m : Res S) (h : list op) : out (list ret * list N) :=
  doo st <- res m; doo (rs, p) <- p_run C K (p_new C st) h; Fine (rs, snd p).
Definition cipher_run_packed (e : env) (c : cipher) (h : list op) : out (list ret * list N) :=
  match c with
  | CChaCha v n key iv => p_core (chacha_score e v n) (Some (chacha_seek v)) (new_internal v key iv) h
  | CXChaCha n key iv => p_core (chacha_score e Ietf n) (Some (chacha_seek Ietf)) (xchacha_new n key iv) h
  | CSalsa n key iv => p_core (salsa_score e n) (Some salsa_seek) (Ok (salsa_new key iv)) h
  | CXSalsa n key iv => p_core (salsa_score e n) (Some salsa_seek) (Ok (xsalsa_new n key iv)) h
  | CRabbit key iv => p_core (rabbit_score e) None (rabbit_new (e_ck e) key iv) h
  | CRabbitKeyOnly key => p_core (rabbit_score e) None (rabbit_key_only (e_ck e) key) h
  | CHc256 key iv => p_core (hc_score e) None (hc_new (e_ck e) (2 ^ e_usz e) key iv) h
  | CRc4 key => doo rs <- res (cipher_run e (CRc4 key) h); Fine (rs, [])
  end.

(** ** [BlockRng] *)
(** Core and results; word 0 of the results is the index. *)
Definition pbrng : Type := (list N * list N)%type.
Section BlockRng.
  Context (G : list N -> list N * list N).
  (** [index], [set_index] ([usize] to [u32] and back), [new]. *)
  Definition p_index (b : pbrng) : nat := N.to_nat (get (snd b) 0).
  Definition p_set_index (results : list N) (i : nat) : list N := upd results 0 (N.of_nat i mod M32).
  Definition pb_new (core : list N) : pbrng := (core, p_set_index (repeat 0 BUFFER_SIZE) BUFFER_SIZE).
  Definition p_word_offset (b : pbrng) : nat := if (p_index b =? BUFFER_SIZE)%nat then 0 else p_index b.
  Definition p_reset_and_skip (b : pbrng) (n : nat) : Res pbrng :=
    if (n =? 0)%nat then Ok (fst b, p_set_index (snd b) BUFFER_SIZE)
    else do _ <- assert_ (n <? BUFFER_SIZE)%nat;
         let (res, core) := G (fst b) in Ok (core, p_set_index res n).
  (** [next_word]: after a refill word 0 is read before the index is written over it. *)
  Definition p_next_word (b : pbrng) : N * pbrng :=
    let index := p_index b in
    if (BUFFER_SIZE <=? index)%nat
    then let (res, core) := G (fst b) in (get res 0, (core, p_set_index res 1))
    else (get (snd b) index, (fst b, p_set_index (snd b) (S index))).
  Definition p_next_u64 (b : pbrng) : N * pbrng :=
    let read res i := N.lor (N.shiftl (get res (S i)) 32) (get res i) in
    let index := p_index b in
    if (index <? BUFFER_SIZE - 1)%nat
    then (read (snd b) index, (fst b, p_set_index (snd b) (index + 2)))
    else if (BUFFER_SIZE <=? index)%nat
    then let (res, core) := G (fst b) in (read res 0%nat, (core, p_set_index res 2))
    else let x := get (snd b) (BUFFER_SIZE - 1) in
         let (res, core) := G (fst b) in
         (N.lor (N.shiftl (get res 0) 32) x, (core, p_set_index res 1)).
  (** [fill_bytes]: the index lives in a local variable during the loop and is written back
      once at the end. *)
  Fixpoint p_fill_loop (fuel : nat) (core results : list N) (index len : nat) : list N * pbrng :=
    match fuel with
    | O => ([], (core, p_set_index results index))
    | S fuel =>
        if (len =? 0)%nat then ([], (core, p_set_index results index))
        else let '(results, core, index) :=
               if (BUFFER_SIZE <=? index)%nat then let (res, core) := G core in (res, core, 0%nat) else (results, core, index) in
             let words := skipn index results in
             let filled := Nat.min (4 * length words) len in
             let consumed := ((filled + 3) / 4)%nat in
             let chunk := firstn filled (bytes_of_words words) in
             let (rest, b) := p_fill_loop fuel core results (index + consumed) (len - filled) in
             (chunk ++ rest, b)
    end.
  Definition p_fill_bytes (b : pbrng) (len : nat) : list N * pbrng := p_fill_loop len (fst b) (snd b) (p_index b) len.
End BlockRng.

(** ** The generator on a packed [BlockRng] ([chacha20/src/rng.rs:102-340]) *)
(** The getters read the core and [word_offset] only: they are those of [ChaChaRng.v]. *)
Definition p_view (b : pbrng) : brng := {| b_core := fst b; b_res := snd b; b_idx := p_index b |}.
Definition p_rng_set_block_pos (G : list N -> list N * list N) (b : pbrng) (pos : N) : Res pbrng :=
  do b <- p_reset_and_skip G b 0; Ok (set_block_pos Legacy (fst b) pos, snd b).
Definition p_rng_set_word_pos (G : list N -> list N * list N) (b : pbrng) (word_offset : N) : Res pbrng :=
  let counter := word_offset / BLOCK_WORDS in
  let core := upd (upd (fst b) 12 (as_u32 counter)) 13 (as_u32 (N.shiftr counter 32)) in
  p_reset_and_skip G (core, snd b) (N.to_nat (word_offset mod BLOCK_WORDS)).
Definition p_set_stream (G : list N -> list N * list N) (b : pbrng) (stream : N) : Res pbrng :=
  let core := upd (upd (fst b) 14 (as_u32 stream)) 15 (as_u32 (N.shiftr stream 32)) in
  p_rng_set_block_pos G (core, snd b) 0.
Definition p_rng_step (G : list N -> list N * list N) (ck : bool) (b : pbrng) (o : rop) : Res (rret * pbrng) :=
  match o with
  | NextU32 => let (x, b') := p_next_word G b in Ok (Num x, b')
  | NextU64 => let (x, b') := p_next_u64 G b in Ok (Num x, b')
  | Fill n => let (l, b') := p_fill_bytes G b n in Ok (Buf l, b')
  | GetWordPos => Ok (Num (get_word_pos (p_view b)), b)
  | SetWordPos p => do b' <- p_rng_set_word_pos G b p; Ok (Unit, b')
  | GetBlockPos => do x <- rng_get_block_pos ck (p_view b); Ok (Num x, b)
  | SetBlockPos x => do b' <- p_rng_set_block_pos G b x; Ok (Unit, b')
  | GetStream => Ok (Num (get_stream (p_view b)), b)
  | SetStream s => do b' <- p_set_stream G b s; Ok (Unit, b')
  | GetSeed => Ok (Buf (get_seed (p_view b)), b)
  | Serialize => do l <- serialize_state ck (p_view b); Ok (Buf l, b)
  end.
Fixpoint p_rng_run (G : list N -> list N * list N) (ck : bool) (b : pbrng) (h : list rop) : Res (list rret * pbrng) :=
  match h with
  | [] => Ok ([], b)
  | o :: h' => do (x, b1) <- p_rng_step G ck b o; do (xs, b2) <- p_rng_run G ck b1 h'; Ok (x :: xs, b2)
  end.
(** Construct from a seed, make the calls: the answers, the core and the results in memory. *)
Definition rng_run_packed (G : list N -> list N * list N) (ck : bool) (seed : list N) (h : list rop) : Res (list rret * pbrng) :=
  do core <- new_internal Legacy seed (repeat 0 8); p_rng_run G ck (pb_new core) h.
(** The same from 49 bytes of state ([deserialize_state], :317-337). *)
Definition p_deserialize_state (G : list N -> list N * list N) (state : list N) : Res pbrng :=
  let seed := firstn 32 state in
  let stream := firstn 8 (skipn 32 state) in
  let word_pos_raw := skipn 40 state in
  do _ <- assert_ ((length seed =? 32) && (length stream =? 8) && (length word_pos_raw =? 9))%nat;
  let word_pos := from_le (word_pos_raw ++ repeat 0 7) in
  do core <- new_internal Legacy seed stream;
  p_rng_set_word_pos G (pb_new core) word_pos.
