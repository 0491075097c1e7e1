(** The NEON backend on both byte orders of aarch64.

    [backends.rs:27], [lib.rs:289] and [rng.rs:83] select this backend by
    [target_arch = "aarch64"] and [target_feature = "neon"] alone; both also hold on the
    big-endian targets ([aarch64_be-unknown-linux-gnu] and others).  [ChaChaNeon.v] and
    [Memory.v] are the little-endian case.

    What depends on the byte order is the memory: a [u32] or [u64] in memory has its bytes in
    native order, and the instructions behind [vld1q_u32] ([LD1 .4S]) and [vst1q_u64]
    ([ST1 .2D]) transfer each element in that order; [vst1q_u8] ([ST1 .16B]) transfers bytes.
    Registers do not depend on it: a reinterpretation ([vreinterpretq_*]) leaves the register
    unchanged, and its lane 0 holds the least significant bits of every wider lane 0 (ACLE,
    "Vector reinterpret cast operations"; [core::arch] reorders lanes on big-endian targets to
    the same effect).  So the round functions of [ChaChaNeon.v] apply as they are. *)
From Verif Require Export Memory.

(** The bytes in memory of a [k]-byte integer; [be]: big-endian. *)
Definition native (be : bool) (k : nat) (x : N) : list N := if be then rev (to_le k x) else to_le k x.
(** The bytes of a [[u32]]. *)
Definition mem_of_u32s (be : bool) (l : list N) : list N := flat_map (native be 4) l.
(** The [[u32]] that bytes in memory are. *)
Fixpoint u32s_of_mem (be : bool) (l : list N) : list N :=
  match l with
  | a :: b :: c :: d :: t => from_le (if be then [d; c; b; a] else [a; b; c; d]) :: u32s_of_mem be t
  | _ => []
  end.
(** [vld1q_u32]: four [u32]s. *)
Definition vld1q_u32_at (be : bool) (mem : list N) (p : ptr) : Res m128 :=
  do b <- p_load mem p 16; Ok (u32s_of_mem be b).
(** The bytes [vst1q_u64] stores: two 64-bit lanes. *)
Definition vst1q_u64_at (be : bool) (r : m128) : list N :=
  match r with
  | [a0; a1; a2; a3] => native be 8 (a0 + M32 * a1) ++ native be 8 (a2 + M32 * a3)
  | _ => []
  end.

(** [neon.rs:45-67] *)
Definition neon_new_at (be : bool) (st : list N) : Res neon_st :=
  let mem := mem_of_u32s be st in
  let p := whole mem 4 in
  do p0 <- p_add p 0; do v0 <- vld1q_u32_at be mem p0;
  do p1 <- p_add p 4; do v1 <- vld1q_u32_at be mem p1;
  do p2 <- p_add p 8; do v2 <- vld1q_u32_at be mem p2;
  do p3 <- p_add p 12; do v3 <- vld1q_u32_at be mem p3;
  Ok {| neon_state := [v0; v1; v2; v3];
        neon_ctrs := map (fun k => vld1q_u32 [k; 0; 0; 0]) [1; 2; 3; 4; 5; 6; 7; 8] |}.
(** [vst1q_u64(state.as_mut_ptr().offset(12).cast::<u64>(), vreinterpretq_u64_u32(r))],
    [neon.rs:85-88], [:106-109]. *)
Definition neon_store_row3_at (be : bool) (st : list N) (r : m128) : Res (list N) :=
  let mem := mem_of_u32s be st in
  do p <- p_add (whole mem 4) 12;
  do mem <- p_store mem p (vst1q_u64_at be r);
  Ok (u32s_of_mem be mem).
(** [neon.rs:73-91]; the closure's buffers are bytes. *)
Definition neon_inner_at (be : bool) (var : variant) (n : nat) (f : list (req * list N)) (st : list N)
  : Res (list (list N) * list N) :=
  do s <- neon_new_at be st;
  do (o, s) <- m_run (neon_mbackend var n) f s;
  let r3 := nth 3 (neon_state s) [] in
  do st <- match var with
           | Ietf => Ok (upd st 12 (vgetq_lane_u32 r3 0))
           | Legacy => neon_store_row3_at be st r3
           end;
  Ok (o, st).
(** The stores of [neon.rs:278-305], into the memory of the buffer. *)
Definition neon_rng_write (var : variant) (n : nat) (s : neon_st) (mem : list N) : Res (list N) :=
  let blocks := iter_n n neon_double_quarter_round (neon_init_blocks var 4 s) in
  do (mem, _) <- for_ (seq 0 4) (fun block '(mem, dest_ptr) =>
      let b := neon_finish_block var s block (nth block blocks []) in
      do mem <- for_ (seq 0 4) (fun row mem =>
          do p <- p_add dest_ptr (row * 16);
          p_store mem p (vst1q_u8 (nth row b []))) mem;
      do dest_ptr <- p_add dest_ptr 64; Ok (mem, dest_ptr)) (mem, whole mem 1);
  Ok mem.
(** [neon.rs:97-110], [:255-307]; [buffer] is a [[u32; 64]]. *)
Definition neon_rng_inner_at (be : bool) (var : variant) (n : nat) (st buffer : list N) : Res (list N * list N) :=
  do s <- neon_new_at be st;
  do mem <- neon_rng_write var n s (mem_of_u32s be buffer);
  let r3 := neon_add_counter var (nth 3 (neon_state s) []) (nth 3 (neon_ctrs s) []) in
  do st <- neon_store_row3_at be st r3;
  Ok (u32s_of_mem be mem, st).
