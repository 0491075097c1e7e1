(** Model of [chacha20/src/backends/neon.rs] (aarch64, little-endian). *)
From Verif Require Export ChaChaCore ChaChaBackend Simd.

(** [neon.rs:24-28] *)
Record neon_st := { neon_state : list m128; neon_ctrs : list m128 }.

(** [add_counter!], [neon.rs:30-41]; reinterpretations are identities on the register. *)
Definition neon_add_counter (var : variant) (a b : m128) : m128 :=
  match var with Ietf => vaddq_u32 a b | Legacy => vaddq_u64 a b end.

(** [neon.rs:45-67] *)
Definition neon_new (st : list N) : neon_st := {|
  neon_state := [vld1q_u32 (skipn 0 st); vld1q_u32 (skipn 4 st); vld1q_u32 (skipn 8 st); vld1q_u32 (skipn 12 st)];
  neon_ctrs := [vld1q_u32 [1; 0; 0; 0]; vld1q_u32 [2; 0; 0; 0]; vld1q_u32 [3; 0; 0; 0]; vld1q_u32 [4; 0; 0; 0];
                vld1q_u32 [5; 0; 0; 0]; vld1q_u32 [6; 0; 0; 0]; vld1q_u32 [7; 0; 0; 0]; vld1q_u32 [8; 0; 0; 0]] |}.

(** [rotate_left!(v, 8)], [neon.rs:225-230] *)
Definition neon_rotate_left_8 (v : m128) : m128 :=
  words_of_bytes (vqtbl1q_u8 (bytes_of_words v) [3; 0; 1; 2; 7; 4; 5; 6; 11; 8; 9; 10; 15; 12; 13; 14]).
(** [rotate_left!(v, 16)], [neon.rs:231-233] *)
Definition neon_rotate_left_16 (v : m128) : m128 := of_u16s (vrev32q_u16 (u16s v)).
(** [rotate_left!(v, r)], [neon.rs:234-236] *)
Definition neon_rotate_left (v : m128) (r : N) : m128 := vorrq_u32 (vshlq_n_u32 v r) (vshrq_n_u32 v (32 - r)).

(** [neon.rs:319-346] *)
Definition neon_add_xor_rot (blocks : list (list m128)) : list (list m128) :=
  map (on4 (fun b0 b1 b2 b3 =>
    let b0 := vaddq_u32 b0 b1 in
    let b3 := veorq_u32 b3 b0 in
    let b3 := neon_rotate_left_16 b3 in
    let b2 := vaddq_u32 b2 b3 in
    let b1 := veorq_u32 b1 b2 in
    let b1 := neon_rotate_left b1 12 in
    let b0 := vaddq_u32 b0 b1 in
    let b3 := veorq_u32 b3 b0 in
    let b3 := neon_rotate_left_8 b3 in
    let b2 := vaddq_u32 b2 b3 in
    let b1 := veorq_u32 b1 b2 in
    let b1 := neon_rotate_left b1 7 in
    [b0; b1; b2; b3])) blocks.

(** [neon.rs:349-355], [extract!] is [vextq_u32(v, v, s)] ([:239-243]). *)
Definition neon_rows_to_cols (blocks : list (list m128)) : list (list m128) :=
  map (on4 (fun b0 b1 b2 b3 => [b0; vextq_u32 b1 b1 1; vextq_u32 b2 b2 2; vextq_u32 b3 b3 3])) blocks.
(** [neon.rs:358-364] *)
Definition neon_cols_to_rows (blocks : list (list m128)) : list (list m128) :=
  map (on4 (fun b0 b1 b2 b3 => [b0; vextq_u32 b1 b1 3; vextq_u32 b2 b2 2; vextq_u32 b3 b3 1])) blocks.
(** [neon.rs:311-316] *)
Definition neon_double_quarter_round (blocks : list (list m128)) : list (list m128) :=
  neon_cols_to_rows (neon_add_xor_rot (neon_rows_to_cols (neon_add_xor_rot blocks))).

(** The array literal [neon.rs:148-192] ([k = 8]) and [:256-276] ([k = 4]). *)
Definition neon_init_blocks (var : variant) (k : nat) (s : neon_st) : list (list m128) :=
  let st i := nth i (neon_state s) [] in
  [st 0%nat; st 1%nat; st 2%nat; st 3%nat]
  :: map (fun i => [st 0%nat; st 1%nat; st 2%nat; neon_add_counter var (st 3%nat) (nth i (neon_ctrs s) [])])
       (seq 0 (k - 1)).

(** Feed-forward of block [block], [neon.rs:199-210], [:284-295]. *)
Definition neon_finish_block (var : variant) (s : neon_st) (block : nat) (b : list m128) : list m128 :=
  let b := fold_left (fun b r => upd b r (vaddq_u32 (nth r b []) (nth r (neon_state s) []))) (seq 0 3) b in
  let s3 := nth 3 (neon_state s) [] in
  if (0 <? block)%nat
  then upd b 3 (vaddq_u32 (nth 3 b []) (neon_add_counter var s3 (nth (block - 1) (neon_ctrs s) [])))
  else upd b 3 (vaddq_u32 (nth 3 b []) s3).

(** [neon.rs:145-221] *)
Definition neon_gen_par_ks_blocks (var : variant) (n : nat) (s : neon_st) : list N * neon_st :=
  let blocks := iter_n n neon_double_quarter_round (neon_init_blocks var 8 s) in
  let out := flat_map (fun block =>
      let b := neon_finish_block var s block (nth block blocks []) in
      flat_map (fun row => vst1q_u8 (nth row b [])) (seq 0 4)) (seq 0 8) in
  let st := neon_state s in
  (out, {| neon_state := upd st 3 (neon_add_counter var (nth 3 st []) (nth 7 (neon_ctrs s) []));
           neon_ctrs := neon_ctrs s |}).

(** [neon.rs:132-142]: generate eight blocks, keep the first, rewind the counter. *)
Definition neon_gen_ks_block (var : variant) (n : nat) (s : neon_st) : list N * neon_st :=
  let state3 := nth 3 (neon_state s) [] in
  let '(par, s) := neon_gen_par_ks_blocks var n s in
  (firstn 64 par,
   {| neon_state := upd (neon_state s) 3 (neon_add_counter var state3 (vld1q_u32 [1; 0; 0; 0]));
      neon_ctrs := neon_ctrs s |}).

(** [neon.rs:117-130]; [gen_tail_blocks] is the trait default. *)
Definition neon_backend (var : variant) (n : nat) : backend neon_st := {|
  par_blocks := 8;
  gen_one := neon_gen_ks_block var n;
  gen_par := neon_gen_par_ks_blocks var n;
  gen_tail := default_tail 8 (neon_gen_ks_block var n)
|}.

(** [vst1q_u64(state[12..16])], [neon.rs:85-88], [:106-109]: overwrites all four words. *)
Definition neon_store_row3 (st : list N) (r : m128) : list N := firstn 12 st ++ r.

(** [neon.rs:73-91] *)
Definition neon_inner (var : variant) (n : nat) (f : list req) (st : list N) : Res (list N * list N) :=
  do (o, s) <- run_reqs (neon_backend var n) f (neon_new st);
  let r3 := nth 3 (neon_state s) [] in
  Ok (o, match var with
         | Ietf => upd st 12 (vgetq_lane_u32 r3 0)
         | Legacy => neon_store_row3 st r3
         end).

(** [neon.rs:97-110], [:255-307]: output in words. *)
Definition neon_rng_inner (var : variant) (n : nat) (st : list N) : list N * list N :=
  let s := neon_new st in
  let blocks := iter_n n neon_double_quarter_round (neon_init_blocks var 4 s) in
  let buf := flat_map (fun block =>
      let b := neon_finish_block var s block (nth block blocks []) in
      flat_map (fun row => nth row b []) (seq 0 4)) (seq 0 4) in
  let r3 := neon_add_counter var (nth 3 (neon_state s) []) (nth 3 (neon_ctrs s) []) in   (* :306 *)
  (buf, neon_store_row3 st r3).                                                           (* :106-109 *)
