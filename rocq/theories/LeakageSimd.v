(** The pointer code of the SIMD backends ([Memory.v], definition by definition) with its
    leakage: every address of a load or store, every branch ([LeakageRes.v]).  Pointer
    arithmetic itself leaks nothing.  Conditions on the variant are known at compile time. *)
From Verif Require Export LeakageRes Memory.
From Verif Require Import Leakage.

Definition r_load128 (mem : list N) (p : ptr) : LR m128 := leak [Rd (p_off p)] (load128 mem p).
Definition r_store (mem : list N) (p : ptr) (bs : list N) : LR (list N) := leak [Wr (p_off p)] (p_store mem p bs).
Definition r_padd (p : ptr) (k : nat) : LR ptr := pure (p_add p k).
(** [blocks[i]]: the bounds check leaks. *)
Definition r_element (mem : list N) (sz i esz : nat) : LR ptr :=
  leak [Br ((i + 1) * sz <=? length mem)%nat] (element mem sz i esz).

Record kbackend (B : Type) := {
  k_par : nat;
  k_one : B -> list N -> LR (list N * B);
  k_many : B -> list N -> LR (list N * B);
  k_tail : nat -> B -> list N -> LR (list N * B)
}.
Arguments k_par {B}. Arguments k_one {B}. Arguments k_many {B}. Arguments k_tail {B}.
(** Default [gen_tail_blocks]: each 64-byte block of the slice in turn. *)
Fixpoint k_ones {B} (g : B -> list N -> LR (list N * B)) (n : nat) (b : B) (mem : list N) : LR (list N * B) :=
  match n with
  | O => leak [Br false] (Ok (mem, b))
  | S n' => dol _ <- leak [Br true] (Ok tt);
      dol (m1, b1) <- g b (firstn 64 mem);
      dol (m2, b2) <- k_ones g n' b1 (skipn 64 mem);
      rret (m1 ++ m2, b2)
  end.
Definition k_default_tail {B} (par : nat) (g : B -> list N -> LR (list N * B)) (n : nat) (b : B) (mem : list N)
  : LR (list N * B) := dol _ <- r_assert (n <? par)%nat; k_ones g n b mem.

(** A closure: requests, each with the buffer it is to fill. *)
Fixpoint k_run {B} (be : kbackend B) (l : list (req * list N)) (b : B) : LR (list (list N) * B) :=
  match l with
  | [] => rret ([], b)
  | (r, mem) :: l' =>
      dol (o, b1) <- match r with
                   | One => k_one be b mem
                   | Par => k_many be b mem
                   | Tail n => k_tail be n b mem
                   end;
      dol (os, b2) <- k_run be l' b1; rret (o :: os, b2)
  end.

(** ** SSE2 *)
(** [sse2.rs:39-48], [:119-128]: [state_ptr] has pointee [__m128i]. *)
Definition sse2_load_lk (st : list N) : LR (list m128) :=
  let mem := bytes_of_words st in
  let state_ptr := whole mem 16 in
  dol p0 <- r_padd state_ptr 0; dol v0 <- r_load128 mem p0;
  dol p1 <- r_padd state_ptr 1; dol v1 <- r_load128 mem p1;
  dol p2 <- r_padd state_ptr 2; dol v2 <- r_load128 mem p2;
  dol p3 <- r_padd state_ptr 3; dol v3 <- r_load128 mem p3;
  rret [v0; v1; v2; v3].
(** [sse2.rs:76-90] *)
Definition sse2_one_lk (var : variant) (n : nat) (v : list m128) (mem : list N) : LR (list N * list m128) :=
  let res := sse2_rounds var n v in
  let v := upd v 3 (sse2_add_ctr var (nth 3 v []) 1) in
  let block_ptr := whole mem 16 in                                                  (* :85 *)
  dol mem <- r_for (seq 0 4) (fun i mem =>
      dol p <- r_padd block_ptr i; r_store mem p (mm_storeu (nth i (nth 0 res []) []))) mem;   (* :86-88 *)
  rret (mem, v).
(** The nested store loop [sse2.rs:101-106], [:145-150]. *)
Definition sse2_store_par_lk (res : list (list m128)) (mem : list N) : LR (list N) :=
  let blocks_ptr := whole mem 16 in
  r_for (seq 0 sse2_PAR_BLOCKS) (fun block mem =>
    r_for (seq 0 4) (fun i mem =>
      dol p <- r_padd blocks_ptr (i + block * sse2_PAR_BLOCKS);
      r_store mem p (mm_storeu (nth i (nth block res []) []))) mem) mem.
(** [sse2.rs:92-108] *)
Definition sse2_par_lk (var : variant) (n : nat) (v : list m128) (mem : list N) : LR (list N * list m128) :=
  let res := sse2_rounds var n v in
  let v := upd v 3 (sse2_add_ctr var (nth 3 v []) (N.of_nat sse2_PAR_BLOCKS)) in
  dol mem <- sse2_store_par_lk res mem; rret (mem, v).
(** [sse2.rs:59-109] *)
Definition sse2_kbackend (var : variant) (n : nat) : kbackend (list m128) := {|
  k_par := sse2_PAR_BLOCKS;
  k_one := sse2_one_lk var n;
  k_many := sse2_par_lk var n;
  k_tail := k_default_tail sse2_PAR_BLOCKS (sse2_one_lk var n)
|}.
(** [sse2.rs:33-56] *)
Definition sse2_inner_lk (var : variant) (n : nat) (f : list (req * list N)) (st : list N)
  : LR (list (list N) * list N) :=
  dol v <- sse2_load_lk st;
  dol (o, v) <- k_run (sse2_kbackend var n) f v;
  dol st <- r_upd st 12 (mm_cvtsi128_si32 (nth 3 v []));
  dol st <- (if (counter_size var =? 8)%nat then r_upd st 13 (mm_extract_epi32 (nth 3 v []) 1) else rret st);
  rret (o, st).
(** [sse2.rs:114-153]; [mem] is the 256-byte [buffer]. *)
Definition sse2_rng_inner_lk (var : variant) (n : nat) (st mem : list N) : LR (list N * list N) :=
  dol v <- sse2_load_lk st;
  let res := sse2_rounds var n v in
  let v := upd v 3 (mm_add_epi64 (nth 3 v []) (mm_set_epi64x 0 (N.of_nat sse2_PAR_BLOCKS))) in
  dol mem <- sse2_store_par_lk res mem;
  dol st <- r_upd st 12 (mm_cvtsi128_si32 (nth 3 v []));
  dol st <- r_upd st 13 (mm_extract_epi32 (nth 3 v []) 1);
  rret (mem, st).

(** ** AVX2 *)
(** [avx2.rs:44-50], [:89-95]: the four rows. *)
Definition avx2_load_rows_lk (st : list N) : LR (list m128) :=
  let mem := bytes_of_words st in
  let state_ptr := whole mem 16 in
  dol p0 <- r_padd state_ptr 0; dol v0 <- r_load128 mem p0;
  dol p1 <- r_padd state_ptr 1; dol v1 <- r_load128 mem p1;
  dol p2 <- r_padd state_ptr 2; dol v2 <- r_load128 mem p2;
  dol p3 <- r_padd state_ptr 3; dol v3 <- r_load128 mem p3;
  rret [v0; v1; v2; v3].
(** [avx2.rs:133-151] *)
Definition avx2_one_lk (var : variant) (n : nat) (s : avx2_st) (mem : list N) : LR (list N * avx2_st) :=
  let res := avx2_rounds n (avx2_v s) (avx2_ctr s) in
  let ctr := map (fun c => avx2_add_ctr var c 1 1) (avx2_ctr s) in
  let res0 := concat (nth 0 res []) in
  let block_ptr := whole mem 16 in                                                  (* :146 *)
  dol mem <- r_for (seq 0 4) (fun i mem =>
      dol p <- r_padd block_ptr i; r_store mem p (mm_storeu (nth (2 * i) res0 []))) mem;  (* :147-149 *)
  rret (mem, {| avx2_v := avx2_v s; avx2_ctr := ctr |}).
(** The store loop [avx2.rs:169-177], [:194-202]; the pointer moves on after every vector. *)
Definition avx2_store_par_lk (vs : list (list m256)) (mem : list N) : LR (list N) :=
  dol (mem, _) <- r_for vs (fun v '(mem, block_ptr) =>
      let t := concat v in
      dol mem <- r_for (seq 0 4) (fun i mem =>
          dol p <- r_padd block_ptr i; dol mem <- r_store mem p (mm_storeu (nth (2 * i) t []));
          dol p <- r_padd block_ptr (4 + i); r_store mem p (mm_storeu (nth (2 * i + 1) t []))) mem;
      dol block_ptr <- r_padd block_ptr 8; rret (mem, block_ptr)) (mem, whole mem 16);
  rret mem.
(** [avx2.rs:154-179] *)
Definition avx2_par_lk (var : variant) (n : nat) (s : avx2_st) (mem : list N) : LR (list N * avx2_st) :=
  let vs := avx2_rounds n (avx2_v s) (avx2_ctr s) in
  let pb := N.of_nat avx2_PAR_BLOCKS in
  let ctr := map (fun c => avx2_add_ctr var c pb pb) (avx2_ctr s) in
  dol mem <- avx2_store_par_lk vs mem;
  rret (mem, {| avx2_v := avx2_v s; avx2_ctr := ctr |}).
(** [avx2.rs:126-180] *)
Definition avx2_kbackend (var : variant) (n : nat) : kbackend avx2_st := {|
  k_par := avx2_PAR_BLOCKS;
  k_one := avx2_one_lk var n;
  k_many := avx2_par_lk var n;
  k_tail := k_default_tail avx2_PAR_BLOCKS (avx2_one_lk var n)
|}.
(** [avx2.rs:38-79] *)
Definition avx2_inner_lk (var : variant) (n : nat) (f : list (req * list N)) (st : list N)
  : LR (list (list N) * list N) :=
  dol r <- avx2_load_rows_lk st;
  dol (o, s) <- k_run (avx2_kbackend var n) f (avx2_setup var r);
  dol st <- r_upd st 12 (mm256_extract_epi32 (nth 0 (avx2_ctr s) []) 0);
  dol st <- match var with Ietf => rret st
            | Legacy => r_upd st 13 (mm256_extract_epi32 (nth 0 (avx2_ctr s) []) 1) end;
  rret (o, st).
(** [avx2.rs:84-112], [:185-204] *)
Definition avx2_rng_inner_lk (n : nat) (st mem : list N) : LR (list N * list N) :=
  dol r <- avx2_load_rows_lk st;
  let s := avx2_setup Legacy r in
  let vs := avx2_rounds n (avx2_v s) (avx2_ctr s) in
  let pb := N.of_nat avx2_PAR_BLOCKS in
  let ctr := map (fun c => mm256_add_epi64 c (mm256_set_epi64x 0 pb 0 pb)) (avx2_ctr s) in
  dol mem <- avx2_store_par_lk vs mem;
  dol st <- r_upd st 12 (mm256_extract_epi32 (nth 0 ctr []) 0);
  dol st <- r_upd st 13 (mm256_extract_epi32 (nth 0 ctr []) 1);
  rret (mem, st).

(** ** AVX-512 *)
(** [avx512.rs:38-48]: [simd_state] has pointee [i32]. *)
Definition avx512_load_lk (st : list N) : LR avx512_st :=
  let mem := bytes_of_words st in
  let simd_state := whole mem 4 in
  dol v0 <- r_load128 mem simd_state;
  dol p1 <- r_padd simd_state 4; dol v1 <- r_load128 mem p1;
  dol p2 <- r_padd simd_state 8; dol v2 <- r_load128 mem p2;
  dol p3 <- r_padd simd_state 12; dol c <- r_load128 mem p3;
  rret {| avx512_state := [v0; v1; v2]; avx512_ctr := c |}.
(** [avx512.rs:297-313] *)
Definition avx512_one_lk (var : variant) (n : nat) (s : avx512_st) (mem : list N) : LR (list N * avx512_st) :=
  let st := avx512_state s in
  let state := [nth 0 st []; nth 1 st []; nth 2 st []; avx512_ctr s] in
  let s := avx512_increment_ctr var 1 s in
  let result := avx512_rounds_quarterwide n state in
  dol mem <- r_for (seq 0 4) (fun row mem =>
      dol dst <- r_padd (whole mem 4) (row * 4); r_store mem dst (bytes_of_words (nth row result []))) mem; (* :308-311 *)
  rret (mem, s).
(** [avx512.rs:86-210]; [mem] is the slice [blocks] of [len] 64-byte blocks. *)
Definition avx512_full_lk (var : variant) (nn n len : nat) (s : avx512_st) (mem : list N) : LR (list N * avx512_st) :=
  dol _ <- r_assert (len <=? nn * avx512_BLOCKS_PER_VECTOR)%nat;                      (* :88 *)
  let ctrs := avx512_ctrs var nn (avx512_ctr s) in
  let s := avx512_increment_ctr var len s in
  let result := avx512_rounds nn n (map mm512_broadcast (avx512_state s)) ctrs in
  dol mem <- r_for (seq 0 nn) (fun i mem =>
      let bl := avx512_transpose (nth i result []) in
      r_for (seq 0 4) (fun j mem =>
        let dst_index := (i * avx512_BLOCKS_PER_VECTOR + j)%nat in
        dol inside <- r_branch (dst_index <? len)%nat;
        if inside then
          dol p <- r_element mem 64 dst_index 64;
          r_store mem p (bytes_of_words (concat (nth j bl [])))                     (* :203-208 *)
        else rret mem) mem) mem;
  rret (mem, s).
(** [avx512.rs:215-276] *)
Definition avx512_half_lk (var : variant) (n len : nat) (s : avx512_st) (mem : list N) : LR (list N * avx512_st) :=
  dol _ <- r_assert (len <=? 2)%nat;                                                  (* :216 *)
  let ctr := mm256_broadcast (avx512_ctr s) in
  let ctr := match var with
             | Ietf => mm256_add_epi32 ctr (mm256_set_epi32 0 0 0 1 0 0 0 0)
             | Legacy => mm256_add_epi64 ctr (mm256_set_epi64x 0 1 0 0)
             end in
  let s := avx512_increment_ctr var len s in
  let st := avx512_state s in
  let bv := avx512_rounds_halfwide n
              [mm256_broadcast (nth 0 st []); mm256_broadcast (nth 1 st []);
               mm256_broadcast (nth 2 st []); ctr] in
  let b0 := nth 0 bv [] in let b1 := nth 1 bv [] in let b2 := nth 2 bv [] in let b3 := nth 3 bv [] in
  let block0_ab := mm256_permutex2var_epi64 b0 [0; 1; 4; 5] b1 in
  let block0_cd := mm256_permutex2var_epi64 b2 [0; 1; 4; 5] b3 in
  let block1_ab := mm256_permutex2var_epi64 b0 [2; 3; 6; 7] b1 in
  let block1_cd := mm256_permutex2var_epi64 b2 [2; 3; 6; 7] b3 in
  let parts := [(block0_ab, block0_cd); (block1_ab, block1_cd)] in
  dol mem <- r_for (seq 0 2) (fun i mem =>
      dol inside <- r_branch (i <? len)%nat;
      if inside then
        let '(ab, cd) := nth i parts ([], []) in
        dol dst <- r_element mem 64 i 4;                                               (* :268 *)
        dol mem <- r_store mem dst (bytes_of_words (concat ab));                     (* :269 *)
        dol p <- r_padd dst (64 / 2 / 4);
        r_store mem p (bytes_of_words (concat cd))                                  (* :270-273 *)
      else rret mem) mem;
  rret (mem, s).
(** [avx512.rs:316-338] *)
Definition avx512_tail_lk (var : variant) (n len : nat) (s : avx512_st) (mem : list N) : LR (list N * avx512_st) :=
  dol _ <- r_assert (len <? avx512_MAX_PAR_BLOCKS)%nat;
  dol c <- r_branch (len =? 0)%nat; if c then rret (mem, s)
  else dol c <- r_branch (len =? 1)%nat; if c then avx512_one_lk var n s mem
  else dol c <- r_branch (len =? 2)%nat; if c then avx512_half_lk var n len s mem
  else dol c <- r_branch (len <=? 4)%nat; if c then avx512_full_lk var 1 n len s mem
  else dol c <- r_branch (len <=? 8)%nat; if c then avx512_full_lk var 2 n len s mem
  else avx512_full_lk var avx512_MAX_N n len s mem.
(** [avx512.rs:284-340] *)
Definition avx512_kbackend (var : variant) (n : nat) : kbackend avx512_st := {|
  k_par := avx512_MAX_PAR_BLOCKS;
  k_one := avx512_one_lk var n;
  k_many := avx512_full_lk var avx512_MAX_N n avx512_MAX_PAR_BLOCKS;
  k_tail := avx512_tail_lk var n
|}.
(** [avx512.rs:32-57] *)
Definition avx512_inner_lk (var : variant) (n : nat) (f : list (req * list N)) (st : list N)
  : LR (list (list N) * list N) :=
  dol s <- avx512_load_lk st;
  dol (o, s) <- k_run (avx512_kbackend var n) f s;
  dol st <- r_upd st 12 (mm_extract_epi32 (avx512_ctr s) 0);
  dol st <- (if (counter_size var =? 8)%nat then r_upd st 13 (mm_extract_epi32 (avx512_ctr s) 1) else rret st);
  rret (o, st).

(** ** NEON *)
(** [neon.rs:45-67]: pointee [u32]; the constant vectors are 16-byte array literals. *)
Definition neon_new_lk (st : list N) : LR neon_st :=
  let mem := bytes_of_words st in
  let p := whole mem 4 in
  dol p0 <- r_padd p 0; dol v0 <- r_load128 mem p0;
  dol p1 <- r_padd p 4; dol v1 <- r_load128 mem p1;
  dol p2 <- r_padd p 8; dol v2 <- r_load128 mem p2;
  dol p3 <- r_padd p 12; dol v3 <- r_load128 mem p3;
  rret {| neon_state := [v0; v1; v2; v3];
        neon_ctrs := map (fun k => vld1q_u32 [k; 0; 0; 0]) [1; 2; 3; 4; 5; 6; 7; 8] |}.
(** [neon.rs:145-221]; [dest[block].as_mut_ptr().add(state_row << 4)], pointee [u8]. *)
Definition neon_par_lk (var : variant) (n : nat) (s : neon_st) (mem : list N) : LR (list N * neon_st) :=
  let blocks := iter_n n neon_double_quarter_round (neon_init_blocks var 8 s) in
  dol mem <- r_for (seq 0 8) (fun block mem =>
      let b := neon_finish_block var s block (nth block blocks []) in
      r_for (seq 0 4) (fun row mem =>
        dol d <- r_element mem 64 block 1;
        dol p <- r_padd d (row * 16);
        r_store mem p (vst1q_u8 (nth row b []))) mem) mem;                          (* :212-217 *)
  let st := neon_state s in
  rret (mem, {| neon_state := upd st 3 (neon_add_counter var (nth 3 st []) (nth 7 (neon_ctrs s) []));
              neon_ctrs := neon_ctrs s |}).
(** [neon.rs:132-142]: [ParBlocks::default()] is 512 zero bytes; [*block = par[0]]. *)
Definition neon_one_lk (var : variant) (n : nat) (s : neon_st) (mem : list N) : LR (list N * neon_st) :=
  let state3 := nth 3 (neon_state s) [] in
  dol (par, s) <- neon_par_lk var n s (repeat 0 512);
  dol mem <- r_store mem (whole mem 64) (firstn 64 par);
  rret (mem, {| neon_state := upd (neon_state s) 3 (neon_add_counter var state3 (vld1q_u32 [1; 0; 0; 0]));
              neon_ctrs := neon_ctrs s |}).
(** [neon.rs:117-222] *)
Definition neon_kbackend (var : variant) (n : nat) : kbackend neon_st := {|
  k_par := 8;
  k_one := neon_one_lk var n;
  k_many := neon_par_lk var n;
  k_tail := k_default_tail 8 (neon_one_lk var n)
|}.
(** [vst1q_u64(state.as_mut_ptr().offset(12).cast::<u64>(), r)], [neon.rs:85-88], [:106-109]. *)
Definition neon_store_row3_lk (st : list N) (r : m128) : LR (list N) :=
  let mem := bytes_of_words st in
  dol p <- r_padd (whole mem 4) 12;
  dol mem <- r_store mem p (bytes_of_words r);
  rret (words_of_bytes mem).
(** [neon.rs:73-91] *)
Definition neon_inner_lk (var : variant) (n : nat) (f : list (req * list N)) (st : list N)
  : LR (list (list N) * list N) :=
  dol s <- neon_new_lk st;
  dol (o, s) <- k_run (neon_kbackend var n) f s;
  let r3 := nth 3 (neon_state s) [] in
  dol st <- match var with
           | Ietf => r_upd st 12 (vgetq_lane_u32 r3 0)
           | Legacy => neon_store_row3_lk st r3
           end;
  rret (o, st).
(** [neon.rs:97-110], [:255-307]; [dest_ptr] has pointee [u8] and moves on after every block. *)
Definition neon_rng_inner_lk (var : variant) (n : nat) (st mem : list N) : LR (list N * list N) :=
  dol s <- neon_new_lk st;
  let blocks := iter_n n neon_double_quarter_round (neon_init_blocks var 4 s) in
  dol (mem, _) <- r_for (seq 0 4) (fun block '(mem, dest_ptr) =>
      let b := neon_finish_block var s block (nth block blocks []) in
      dol mem <- r_for (seq 0 4) (fun row mem =>
          dol p <- r_padd dest_ptr (row * 16);
          r_store mem p (vst1q_u8 (nth row b []))) mem;                             (* :297-303 *)
      dol dest_ptr <- r_padd dest_ptr 64; rret (mem, dest_ptr)) (mem, whole mem 1);     (* :304 *)
  let r3 := neon_add_counter var (nth 3 (neon_state s) []) (nth 3 (neon_ctrs s) []) in
  dol st <- neon_store_row3_lk st r3;
  rret (mem, st).
