(** Byte-addressed memory for the [unsafe] pointer code of the SIMD backends.

    The other backend models describe a store by the bytes it contributes to the
    output.  Here every load and store goes through a raw pointer into an explicit
    memory, with the bounds that make it defined behaviour checked: a pointer may
    only be moved inside its allocation or one past its end ([ptr::add]'s safety
    contract), and an access must lie inside the allocation.  [Panic] stands for
    undefined behaviour as well as for a panic; the theorems exclude both.

    All the vector accesses of the code are the unaligned ones ([loadu]/[storeu],
    [vld1q]/[vst1q]), so alignment is not represented.  The output memory given to
    a function holds arbitrary bytes. *)
From Verif Require Export Res ChaChaBackend ChaChaSse2 ChaChaAvx2 ChaChaAvx512 ChaChaNeon.

(** A raw pointer: its allocation is [p_lo, p_hi) of the memory, its address
    [p_off], its pointee size [p_esz]. *)
Record ptr := { p_lo : nat; p_hi : nat; p_off : nat; p_esz : nat }.
(** [x.as_ptr()]/[x.as_mut_ptr()] of a whole object, cast to a pointee of [esz] bytes. *)
Definition whole (mem : list N) (esz : nat) : ptr :=
  {| p_lo := 0; p_hi := length mem; p_off := 0; p_esz := esz |}.
(** [blocks[i]] of a slice of [sz]-byte elements (bounds-checked), as a pointer to
    that element, cast to a pointee of [esz] bytes. *)
Definition element (mem : list N) (sz i esz : nat) : Res ptr :=
  if ((i + 1) * sz <=? length mem)%nat
  then Ok {| p_lo := i * sz; p_hi := (i + 1) * sz; p_off := i * sz; p_esz := esz |} else Panic.
(** [p.add(k)], [p.offset(k)]. *)
Definition p_add (p : ptr) (k : nat) : Res ptr :=
  let o := (p_off p + k * p_esz p)%nat in
  if ((p_lo p <=? o) && (o <=? p_hi p))%nat
  then Ok {| p_lo := p_lo p; p_hi := p_hi p; p_off := o; p_esz := p_esz p |} else Panic.
(** Is an access of [k] bytes at [p] inside its allocation, and that inside the memory? *)
Definition in_bounds (mem : list N) (p : ptr) (k : nat) : bool :=
  ((p_lo p <=? p_off p) && (p_off p + k <=? p_hi p) && (p_hi p <=? length mem))%nat.
Definition p_load (mem : list N) (p : ptr) (k : nat) : Res (list N) :=
  if in_bounds mem p k then Ok (slice mem (p_off p) k) else Panic.
(** [mem] with [bs] at offset [o]. *)
Definition put (mem : list N) (o : nat) (bs : list N) : list N :=
  firstn o mem ++ bs ++ skipn (o + length bs) mem.
Definition p_store (mem : list N) (p : ptr) (bs : list N) : Res (list N) :=
  if in_bounds mem p (length bs) then Ok (put mem (p_off p) bs) else Panic.
(** [_mm_loadu_si128], [_mm_loadu_epi32], [vld1q_u32]: 16 bytes. *)
Definition load128 (mem : list N) (p : ptr) : Res m128 :=
  do b <- p_load mem p 16; Ok (words_of_bytes b).

(** ** Backends that write through pointers; environment contract of [ChaChaBackend] *)
Record mbackend (B : Type) := {
  m_par : nat;
  m_one : B -> list N -> Res (list N * B);
  m_many : B -> list N -> Res (list N * B);
  m_tail : nat -> B -> list N -> Res (list N * B)
}.
Arguments m_par {B}. Arguments m_one {B}. Arguments m_many {B}. Arguments m_tail {B}.

(** Default [gen_tail_blocks]: each 64-byte block of the slice in turn. *)
Fixpoint m_ones {B} (g : B -> list N -> Res (list N * B)) (n : nat) (b : B) (mem : list N) : Res (list N * B) :=
  match n with
  | O => Ok (mem, b)
  | S n' =>
      do (m1, b1) <- g b (firstn 64 mem);
      do (m2, b2) <- m_ones g n' b1 (skipn 64 mem);
      Ok (m1 ++ m2, b2)
  end.
Definition m_default_tail {B} (par : nat) (g : B -> list N -> Res (list N * B)) (n : nat) (b : B) (mem : list N)
  : Res (list N * B) := do _ <- assert_ (n <? par)%nat; m_ones g n b mem.

(** A closure: requests, each with the buffer it is to fill. *)
Fixpoint m_run {B} (be : mbackend B) (l : list (req * list N)) (b : B) : Res (list (list N) * B) :=
  match l with
  | [] => Ok ([], b)
  | (r, mem) :: l' =>
      do (o, b1) <- match r with
                   | One => m_one be b mem
                   | Par => m_many be b mem
                   | Tail n => m_tail be n b mem
                   end;
      do (os, b2) <- m_run be l' b1; Ok (o :: os, b2)
  end.
(** Buffers have the type the trait demands: [Block], [ParBlocks], [&mut [Block]]. *)
Definition buffers_fit (par : nat) (l : list (req * list N)) : Prop :=
  Forall (fun x => length (snd x) = (64 * req_blocks par (fst x))%nat) l.

(** ** SSE2 *)
(** [sse2.rs:39-48], [:119-128]: [state_ptr] has pointee [__m128i]. *)
Definition sse2_load_mem (st : list N) : Res (list m128) :=
  let mem := bytes_of_words st in
  let state_ptr := whole mem 16 in
  do p0 <- p_add state_ptr 0; do v0 <- load128 mem p0;
  do p1 <- p_add state_ptr 1; do v1 <- load128 mem p1;
  do p2 <- p_add state_ptr 2; do v2 <- load128 mem p2;
  do p3 <- p_add state_ptr 3; do v3 <- load128 mem p3;
  Ok [v0; v1; v2; v3].
(** [sse2.rs:76-90] *)
Definition sse2_one_mem (var : variant) (n : nat) (v : list m128) (mem : list N) : Res (list N * list m128) :=
  let res := sse2_rounds var n v in
  let v := upd v 3 (sse2_add_ctr var (nth 3 v []) 1) in
  let block_ptr := whole mem 16 in                                                  (* :85 *)
  do mem <- for_ (seq 0 4) (fun i mem =>
      do p <- p_add block_ptr i; p_store mem p (mm_storeu (nth i (nth 0 res []) []))) mem;   (* :86-88 *)
  Ok (mem, v).
(** The nested store loop [sse2.rs:101-106], [:145-150]. *)
Definition sse2_store_par (res : list (list m128)) (mem : list N) : Res (list N) :=
  let blocks_ptr := whole mem 16 in
  for_ (seq 0 sse2_PAR_BLOCKS) (fun block mem =>
    for_ (seq 0 4) (fun i mem =>
      do p <- p_add blocks_ptr (i + block * sse2_PAR_BLOCKS);
      p_store mem p (mm_storeu (nth i (nth block res []) []))) mem) mem.
(** [sse2.rs:92-108] *)
Definition sse2_par_mem (var : variant) (n : nat) (v : list m128) (mem : list N) : Res (list N * list m128) :=
  let res := sse2_rounds var n v in
  let v := upd v 3 (sse2_add_ctr var (nth 3 v []) (N.of_nat sse2_PAR_BLOCKS)) in
  do mem <- sse2_store_par res mem; Ok (mem, v).
(** [sse2.rs:59-109] *)
Definition sse2_mbackend (var : variant) (n : nat) : mbackend (list m128) := {|
  m_par := sse2_PAR_BLOCKS;
  m_one := sse2_one_mem var n;
  m_many := sse2_par_mem var n;
  m_tail := m_default_tail sse2_PAR_BLOCKS (sse2_one_mem var n)
|}.
(** [sse2.rs:33-56] *)
Definition sse2_inner_mem (var : variant) (n : nat) (f : list (req * list N)) (st : list N)
  : Res (list (list N) * list N) :=
  do v <- sse2_load_mem st;
  do (o, v) <- m_run (sse2_mbackend var n) f v;
  let st := upd st 12 (mm_cvtsi128_si32 (nth 3 v [])) in
  let st := if (counter_size var =? 8)%nat then upd st 13 (mm_extract_epi32 (nth 3 v []) 1) else st in
  Ok (o, st).
(** [sse2.rs:114-153]; [mem] is the 256-byte [buffer]. *)
Definition sse2_rng_inner_mem (var : variant) (n : nat) (st mem : list N) : Res (list N * list N) :=
  do v <- sse2_load_mem st;
  let res := sse2_rounds var n v in
  let v := upd v 3 (mm_add_epi64 (nth 3 v []) (mm_set_epi64x 0 (N.of_nat sse2_PAR_BLOCKS))) in
  do mem <- sse2_store_par res mem;
  let st := upd st 12 (mm_cvtsi128_si32 (nth 3 v [])) in
  let st := upd st 13 (mm_extract_epi32 (nth 3 v []) 1) in
  Ok (mem, st).

(** ** AVX2 *)
(** [avx2.rs:44-50], [:89-95]: the four rows. *)
Definition avx2_load_rows_mem (st : list N) : Res (list m128) :=
  let mem := bytes_of_words st in
  let state_ptr := whole mem 16 in
  do p0 <- p_add state_ptr 0; do v0 <- load128 mem p0;
  do p1 <- p_add state_ptr 1; do v1 <- load128 mem p1;
  do p2 <- p_add state_ptr 2; do v2 <- load128 mem p2;
  do p3 <- p_add state_ptr 3; do v3 <- load128 mem p3;
  Ok [v0; v1; v2; v3].
(** [avx2.rs:45-70] after the loads. *)
Definition avx2_setup (var : variant) (r : list m128) : avx2_st :=
  let c := mm256_broadcast (nth 3 r []) in
  let c := avx2_add_ctr var c 1 0 in
  {| avx2_v := [mm256_broadcast (nth 0 r []); mm256_broadcast (nth 1 r []); mm256_broadcast (nth 2 r [])];
     avx2_ctr := avx2_ctr_loop avx2_N (fun c => avx2_add_ctr var c 2 2) c |}.
(** [avx2.rs:133-151] *)
Definition avx2_one_mem (var : variant) (n : nat) (s : avx2_st) (mem : list N) : Res (list N * avx2_st) :=
  let res := avx2_rounds n (avx2_v s) (avx2_ctr s) in
  let ctr := map (fun c => avx2_add_ctr var c 1 1) (avx2_ctr s) in
  let res0 := concat (nth 0 res []) in
  let block_ptr := whole mem 16 in                                                  (* :146 *)
  do mem <- for_ (seq 0 4) (fun i mem =>
      do p <- p_add block_ptr i; p_store mem p (mm_storeu (nth (2 * i) res0 []))) mem;  (* :147-149 *)
  Ok (mem, {| avx2_v := avx2_v s; avx2_ctr := ctr |}).
(** The store loop [avx2.rs:169-177], [:194-202]; the pointer moves on after every vector. *)
Definition avx2_store_par (vs : list (list m256)) (mem : list N) : Res (list N) :=
  do (mem, _) <- for_ vs (fun v '(mem, block_ptr) =>
      let t := concat v in
      do mem <- for_ (seq 0 4) (fun i mem =>
          do p <- p_add block_ptr i; do mem <- p_store mem p (mm_storeu (nth (2 * i) t []));
          do p <- p_add block_ptr (4 + i); p_store mem p (mm_storeu (nth (2 * i + 1) t []))) mem;
      do block_ptr <- p_add block_ptr 8; Ok (mem, block_ptr)) (mem, whole mem 16);
  Ok mem.
(** [avx2.rs:154-179] *)
Definition avx2_par_mem (var : variant) (n : nat) (s : avx2_st) (mem : list N) : Res (list N * avx2_st) :=
  let vs := avx2_rounds n (avx2_v s) (avx2_ctr s) in
  let pb := N.of_nat avx2_PAR_BLOCKS in
  let ctr := map (fun c => avx2_add_ctr var c pb pb) (avx2_ctr s) in
  do mem <- avx2_store_par vs mem;
  Ok (mem, {| avx2_v := avx2_v s; avx2_ctr := ctr |}).
(** [avx2.rs:126-180] *)
Definition avx2_mbackend (var : variant) (n : nat) : mbackend avx2_st := {|
  m_par := avx2_PAR_BLOCKS;
  m_one := avx2_one_mem var n;
  m_many := avx2_par_mem var n;
  m_tail := m_default_tail avx2_PAR_BLOCKS (avx2_one_mem var n)
|}.
(** [avx2.rs:38-79] *)
Definition avx2_inner_mem (var : variant) (n : nat) (f : list (req * list N)) (st : list N)
  : Res (list (list N) * list N) :=
  do r <- avx2_load_rows_mem st;
  do (o, s) <- m_run (avx2_mbackend var n) f (avx2_setup var r);
  let st := upd st 12 (mm256_extract_epi32 (nth 0 (avx2_ctr s) []) 0) in
  let st := match var with Ietf => st
            | Legacy => upd st 13 (mm256_extract_epi32 (nth 0 (avx2_ctr s) []) 1) end in
  Ok (o, st).
(** [avx2.rs:84-112], [:185-204] *)
Definition avx2_rng_inner_mem (n : nat) (st mem : list N) : Res (list N * list N) :=
  do r <- avx2_load_rows_mem st;
  let s := avx2_setup Legacy r in
  let vs := avx2_rounds n (avx2_v s) (avx2_ctr s) in
  let pb := N.of_nat avx2_PAR_BLOCKS in
  let ctr := map (fun c => mm256_add_epi64 c (mm256_set_epi64x 0 pb 0 pb)) (avx2_ctr s) in
  do mem <- avx2_store_par vs mem;
  let st := upd st 12 (mm256_extract_epi32 (nth 0 ctr []) 0) in
  let st := upd st 13 (mm256_extract_epi32 (nth 0 ctr []) 1) in
  Ok (mem, st).

(** ** AVX-512 *)
(** [avx512.rs:38-48]: [simd_state] has pointee [i32]. *)
Definition avx512_load_mem (st : list N) : Res avx512_st :=
  let mem := bytes_of_words st in
  let simd_state := whole mem 4 in
  do v0 <- load128 mem simd_state;
  do p1 <- p_add simd_state 4; do v1 <- load128 mem p1;
  do p2 <- p_add simd_state 8; do v2 <- load128 mem p2;
  do p3 <- p_add simd_state 12; do c <- load128 mem p3;
  Ok {| avx512_state := [v0; v1; v2]; avx512_ctr := c |}.
(** [avx512.rs:297-313] *)
Definition avx512_one_mem (var : variant) (n : nat) (s : avx512_st) (mem : list N) : Res (list N * avx512_st) :=
  let st := avx512_state s in
  let state := [nth 0 st []; nth 1 st []; nth 2 st []; avx512_ctr s] in
  let s := avx512_increment_ctr var 1 s in
  let result := avx512_rounds_quarterwide n state in
  do mem <- for_ (seq 0 4) (fun row mem =>
      do dst <- p_add (whole mem 4) (row * 4); p_store mem dst (bytes_of_words (nth row result []))) mem; (* :308-311 *)
  Ok (mem, s).
(** [avx512.rs:86-210]; [mem] is the slice [blocks] of [len] 64-byte blocks. *)
Definition avx512_full_mem (var : variant) (nn n len : nat) (s : avx512_st) (mem : list N) : Res (list N * avx512_st) :=
  do _ <- assert_ (len <=? nn * avx512_BLOCKS_PER_VECTOR)%nat;                      (* :88 *)
  let ctrs := avx512_ctrs var nn (avx512_ctr s) in
  let s := avx512_increment_ctr var len s in
  let result := avx512_rounds nn n (map mm512_broadcast (avx512_state s)) ctrs in
  do mem <- for_ (seq 0 nn) (fun i mem =>
      let bl := avx512_transpose (nth i result []) in
      for_ (seq 0 4) (fun j mem =>
        let dst_index := (i * avx512_BLOCKS_PER_VECTOR + j)%nat in
        if (dst_index <? len)%nat then
          do p <- element mem 64 dst_index 64;
          p_store mem p (bytes_of_words (concat (nth j bl [])))                     (* :203-208 *)
        else Ok mem) mem) mem;
  Ok (mem, s).
(** [avx512.rs:215-276] *)
Definition avx512_half_mem (var : variant) (n len : nat) (s : avx512_st) (mem : list N) : Res (list N * avx512_st) :=
  do _ <- assert_ (len <=? 2)%nat;                                                  (* :216 *)
  let ctr := mm256_broadcast (avx512_ctr s) in
  let ctr := match var with
             | Ietf => mm256_add_epi32 ctr (mm256_set_epi32 0 0 0 1 0 0 0 0)
             | Legacy => mm256_add_epi64 ctr (mm256_set_epi64x 0 1 0 0)
             end in
  let s := avx512_increment_ctr var len s in
  let st := avx512_state s in
  let bv := avx512_rounds_halfwide n
              [mm256_broadcast (nth 0 st []); mm256_broadcast (nth 1 st []);
               mm256_broadcast (nth 2 st []); ctr] in
  let b0 := nth 0 bv [] in let b1 := nth 1 bv [] in let b2 := nth 2 bv [] in let b3 := nth 3 bv [] in
  let block0_ab := mm256_permutex2var_epi64 b0 [0; 1; 4; 5] b1 in
  let block0_cd := mm256_permutex2var_epi64 b2 [0; 1; 4; 5] b3 in
  let block1_ab := mm256_permutex2var_epi64 b0 [2; 3; 6; 7] b1 in
  let block1_cd := mm256_permutex2var_epi64 b2 [2; 3; 6; 7] b3 in
  let parts := [(block0_ab, block0_cd); (block1_ab, block1_cd)] in
  do mem <- for_ (seq 0 2) (fun i mem =>
      if (i <? len)%nat then
        let '(ab, cd) := nth i parts ([], []) in
        do dst <- element mem 64 i 4;                                               (* :268 *)
        do mem <- p_store mem dst (bytes_of_words (concat ab));                     (* :269 *)
        do p <- p_add dst (64 / 2 / 4);
        p_store mem p (bytes_of_words (concat cd))                                  (* :270-273 *)
      else Ok mem) mem;
  Ok (mem, s).
(** [avx512.rs:316-338] *)
Definition avx512_tail_mem (var : variant) (n len : nat) (s : avx512_st) (mem : list N) : Res (list N * avx512_st) :=
  do _ <- assert_ (len <? avx512_MAX_PAR_BLOCKS)%nat;
  if (len =? 0)%nat then Ok (mem, s)
  else if (len =? 1)%nat then avx512_one_mem var n s mem
  else if (len =? 2)%nat then avx512_half_mem var n len s mem
  else if (len <=? 4)%nat then avx512_full_mem var 1 n len s mem
  else if (len <=? 8)%nat then avx512_full_mem var 2 n len s mem
  else avx512_full_mem var avx512_MAX_N n len s mem.
(** [avx512.rs:284-340] *)
Definition avx512_mbackend (var : variant) (n : nat) : mbackend avx512_st := {|
  m_par := avx512_MAX_PAR_BLOCKS;
  m_one := avx512_one_mem var n;
  m_many := avx512_full_mem var avx512_MAX_N n avx512_MAX_PAR_BLOCKS;
  m_tail := avx512_tail_mem var n
|}.
(** [avx512.rs:32-57] *)
Definition avx512_inner_mem (var : variant) (n : nat) (f : list (req * list N)) (st : list N)
  : Res (list (list N) * list N) :=
  do s <- avx512_load_mem st;
  do (o, s) <- m_run (avx512_mbackend var n) f s;
  let st := upd st 12 (mm_extract_epi32 (avx512_ctr s) 0) in
  let st := if (counter_size var =? 8)%nat then upd st 13 (mm_extract_epi32 (avx512_ctr s) 1) else st in
  Ok (o, st).

(** ** NEON *)
(** [neon.rs:45-67]: pointee [u32]; the constant vectors are 16-byte array literals. *)
Definition neon_new_mem (st : list N) : Res neon_st :=
  let mem := bytes_of_words st in
  let p := whole mem 4 in
  do p0 <- p_add p 0; do v0 <- load128 mem p0;
  do p1 <- p_add p 4; do v1 <- load128 mem p1;
  do p2 <- p_add p 8; do v2 <- load128 mem p2;
  do p3 <- p_add p 12; do v3 <- load128 mem p3;
  Ok {| neon_state := [v0; v1; v2; v3];
        neon_ctrs := map (fun k => vld1q_u32 [k; 0; 0; 0]) [1; 2; 3; 4; 5; 6; 7; 8] |}.
(** [neon.rs:145-221]; [dest[block].as_mut_ptr().add(state_row << 4)], pointee [u8]. *)
Definition neon_par_mem (var : variant) (n : nat) (s : neon_st) (mem : list N) : Res (list N * neon_st) :=
  let blocks := iter_n n neon_double_quarter_round (neon_init_blocks var 8 s) in
  do mem <- for_ (seq 0 8) (fun block mem =>
      let b := neon_finish_block var s block (nth block blocks []) in
      for_ (seq 0 4) (fun row mem =>
        do d <- element mem 64 block 1;
        do p <- p_add d (row * 16);
        p_store mem p (vst1q_u8 (nth row b []))) mem) mem;                          (* :212-217 *)
  let st := neon_state s in
  Ok (mem, {| neon_state := upd st 3 (neon_add_counter var (nth 3 st []) (nth 7 (neon_ctrs s) []));
              neon_ctrs := neon_ctrs s |}).
(** [neon.rs:132-142]: [ParBlocks::default()] is 512 zero bytes; [*block = par[0]]. *)
Definition neon_one_mem (var : variant) (n : nat) (s : neon_st) (mem : list N) : Res (list N * neon_st) :=
  let state3 := nth 3 (neon_state s) [] in
  do (par, s) <- neon_par_mem var n s (repeat 0 512);
  do mem <- p_store mem (whole mem 64) (firstn 64 par);
  Ok (mem, {| neon_state := upd (neon_state s) 3 (neon_add_counter var state3 (vld1q_u32 [1; 0; 0; 0]));
              neon_ctrs := neon_ctrs s |}).
(** [neon.rs:117-222] *)
Definition neon_mbackend (var : variant) (n : nat) : mbackend neon_st := {|
  m_par := 8;
  m_one := neon_one_mem var n;
  m_many := neon_par_mem var n;
  m_tail := m_default_tail 8 (neon_one_mem var n)
|}.
(** [vst1q_u64(state.as_mut_ptr().offset(12).cast::<u64>(), r)], [neon.rs:85-88], [:106-109]. *)
Definition neon_store_row3_mem (st : list N) (r : m128) : Res (list N) :=
  let mem := bytes_of_words st in
  do p <- p_add (whole mem 4) 12;
  do mem <- p_store mem p (bytes_of_words r);
  Ok (words_of_bytes mem).
(** [neon.rs:73-91] *)
Definition neon_inner_mem (var : variant) (n : nat) (f : list (req * list N)) (st : list N)
  : Res (list (list N) * list N) :=
  do s <- neon_new_mem st;
  do (o, s) <- m_run (neon_mbackend var n) f s;
  let r3 := nth 3 (neon_state s) [] in
  do st <- match var with
           | Ietf => Ok (upd st 12 (vgetq_lane_u32 r3 0))
           | Legacy => neon_store_row3_mem st r3
           end;
  Ok (o, st).
(** [neon.rs:97-110], [:255-307]; [dest_ptr] has pointee [u8] and moves on after every block. *)
Definition neon_rng_inner_mem (var : variant) (n : nat) (st mem : list N) : Res (list N * list N) :=
  do s <- neon_new_mem st;
  let blocks := iter_n n neon_double_quarter_round (neon_init_blocks var 4 s) in
  do (mem, _) <- for_ (seq 0 4) (fun block '(mem, dest_ptr) =>
      let b := neon_finish_block var s block (nth block blocks []) in
      do mem <- for_ (seq 0 4) (fun row mem =>
          do p <- p_add dest_ptr (row * 16);
          p_store mem p (vst1q_u8 (nth row b []))) mem;                             (* :297-303 *)
      do dest_ptr <- p_add dest_ptr 64; Ok (mem, dest_ptr)) (mem, whole mem 1);     (* :304 *)
  let r3 := neon_add_counter var (nth 3 (neon_state s) []) (nth 3 (neon_ctrs s) []) in
  do st <- neon_store_row3_mem st r3;
  Ok (mem, st).
