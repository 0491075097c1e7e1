(** Model of [chacha20/src/backends/avx2.rs]. *)
From Verif Require Export ChaChaCore ChaChaBackend Simd.

Definition avx2_PAR_BLOCKS : nat := 4.        (* avx2.rs:30 *)
Definition avx2_N : nat := 2.                 (* avx2.rs:32 *)

(** [match size_of::<V::Counter>()] with a constant in the low lane of each 128-bit
    half ([hi], [lo]): [avx2.rs:51-55], [:59-63], [:137-141], [:160-166]. *)
Definition avx2_add_ctr (v : variant) (c : m256) (hi lo : N) : m256 :=
  match v with
  | Ietf => mm256_add_epi32 c (mm256_set_epi32 0 0 0 hi 0 0 0 lo)
  | Legacy => mm256_add_epi64 c (mm256_set_epi64x 0 hi 0 lo)
  end.

(** [avx2.rs:114-118] *)
Record avx2_st := { avx2_v : list m256; avx2_ctr : list m256 }.

(** [avx2.rs:314-319] *)
Definition rol16_mask : m256 :=
  mm256_set_epi64x 0x0d0c0f0e09080b0a 0x0504070601000302 0x0d0c0f0e09080b0a 0x0504070601000302.
(** [avx2.rs:320-325] *)
Definition rol8_mask : m256 :=
  mm256_set_epi64x 0x0e0d0c0f0a09080b 0x0605040702010003 0x0e0d0c0f0a09080b 0x0605040702010003.

(** [avx2.rs:313-354]: four loops over [vs]. *)
Definition avx2_add_xor_rot (vs : list (list m256)) : list (list m256) :=
  let vs := map (on4 (fun a b c d =>
    let a := mm256_add_epi32 a b in
    let d := mm256_xor d a in
    let d := mm256_shuffle_epi8 d rol16_mask in [a; b; c; d])) vs in
  let vs := map (on4 (fun a b c d =>
    let c := mm256_add_epi32 c d in
    let b := mm256_xor b c in
    let b := mm256_xor (mm256_slli_epi32 b 12) (mm256_srli_epi32 b 20) in [a; b; c; d])) vs in
  let vs := map (on4 (fun a b c d =>
    let a := mm256_add_epi32 a b in
    let d := mm256_xor d a in
    let d := mm256_shuffle_epi8 d rol8_mask in [a; b; c; d])) vs in
  map (on4 (fun a b c d =>
    let c := mm256_add_epi32 c d in
    let b := mm256_xor b c in
    let b := mm256_xor (mm256_slli_epi32 b 7) (mm256_srli_epi32 b 25) in [a; b; c; d])) vs.

(** [avx2.rs:274-281] *)
Definition avx2_rows_to_cols (vs : list (list m256)) : list (list m256) :=
  map (on4 (fun a b c d =>
    let c := mm256_shuffle_epi32 c 0x39 in
    let d := mm256_shuffle_epi32 d 0x4E in
    let a := mm256_shuffle_epi32 a 0x93 in [a; b; c; d])) vs.

(** [avx2.rs:302-309] *)
Definition avx2_cols_to_rows (vs : list (list m256)) : list (list m256) :=
  map (on4 (fun a b c d =>
    let c := mm256_shuffle_epi32 c 0x93 in
    let d := mm256_shuffle_epi32 d 0x4E in
    let a := mm256_shuffle_epi32 a 0x39 in [a; b; c; d])) vs.

(** [avx2.rs:230-235] *)
Definition avx2_double_quarter_round (vs : list (list m256)) : list (list m256) :=
  avx2_cols_to_rows (avx2_add_xor_rot (avx2_rows_to_cols (avx2_add_xor_rot vs))).

(** [avx2.rs:209-226] *)
Definition avx2_rounds (n : nat) (v c : list m256) : list (list m256) :=
  let vs := map (fun i => [nth 0 v []; nth 1 v []; nth 2 v []; nth i c []]) (seq 0 avx2_N) in (* :210-213 *)
  let vs := iter_n n avx2_double_quarter_round vs in                                     (* :214-216 *)
  fold_left (fun vs i =>
    let e := nth i vs [] in
    let e := fold_left (fun e j => upd e j (mm256_add_epi32 (nth j e []) (nth j v []))) (seq 0 3) e in
    let e := upd e 3 (mm256_add_epi32 (nth 3 e []) (nth i c [])) in
    upd vs i e) (seq 0 avx2_N) vs.                                                       (* :218-223 *)

(** [avx2.rs:133-151]: [res[0]] transmuted to eight [__m128i]; even ones stored. *)
Definition avx2_gen_ks_block (var : variant) (n : nat) (s : avx2_st) : list N * avx2_st :=
  let res := avx2_rounds n (avx2_v s) (avx2_ctr s) in
  let ctr := map (fun c => avx2_add_ctr var c 1 1) (avx2_ctr s) in
  let res0 := concat (nth 0 res []) in
  (flat_map (fun i => mm_storeu (nth (2 * i) res0 [])) (seq 0 4),
   {| avx2_v := avx2_v s; avx2_ctr := ctr |}).

(** Stores of one loop iteration [avx2.rs:171-175], [:196-200]: vector slots [0..4] get
    [t[2i]], slots [4..8] get [t[2i+1]]. *)
Definition avx2_store_slots (v : list m256) : list m128 :=
  let t := concat v in
  map (fun i => nth (2 * i) t []) (seq 0 4) ++ map (fun i => nth (2 * i + 1) t []) (seq 0 4).

(** [avx2.rs:154-179] *)
Definition avx2_gen_par_ks_blocks (var : variant) (n : nat) (s : avx2_st) : list N * avx2_st :=
  let vs := avx2_rounds n (avx2_v s) (avx2_ctr s) in
  let pb := N.of_nat avx2_PAR_BLOCKS in
  let ctr := map (fun c => avx2_add_ctr var c pb pb) (avx2_ctr s) in
  (flat_map (fun v => flat_map mm_storeu (avx2_store_slots v)) vs,
   {| avx2_v := avx2_v s; avx2_ctr := ctr |}).

(** [avx2.rs:126-131]; [gen_tail_blocks] is the trait default. *)
Definition avx2_backend (var : variant) (n : nat) : backend avx2_st := {|
  par_blocks := avx2_PAR_BLOCKS;
  gen_one := avx2_gen_ks_block var n;
  gen_par := avx2_gen_par_ks_blocks var n;
  gen_tail := default_tail avx2_PAR_BLOCKS (avx2_gen_ks_block var n)
|}.

(** [avx2.rs:45-49], [:90-94] *)
Definition avx2_load_v (st : list N) : list m256 :=
  [mm256_broadcast (mm_loadu st 0); mm256_broadcast (mm_loadu st 1); mm256_broadcast (mm_loadu st 2)].

(** Loop [avx2.rs:56-64], [:97-101]: [ctr[i] = c; c += 2], for [N = 2]. *)
Fixpoint avx2_ctr_loop (k : nat) (incr : m256 -> m256) (c : m256) : list m256 :=
  match k with O => [] | S k' => c :: avx2_ctr_loop k' incr (incr c) end.

(** [avx2.rs:44-69] *)
Definition avx2_load (var : variant) (st : list N) : avx2_st :=
  let c := mm256_broadcast (mm_loadu st 3) in
  let c := avx2_add_ctr var c 1 0 in
  {| avx2_v := avx2_load_v st; avx2_ctr := avx2_ctr_loop avx2_N (fun c => avx2_add_ctr var c 2 2) c |}.

(** [avx2.rs:38-79] *)
Definition avx2_inner (var : variant) (n : nat) (f : list req) (st : list N) : Res (list N * list N) :=
  do (o, s) <- run_reqs (avx2_backend var n) f (avx2_load var st);
  let st := upd st 12 (mm256_extract_epi32 (nth 0 (avx2_ctr s) []) 0) in                 (* :73 *)
  let st := match var with Ietf => st
            | Legacy => upd st 13 (mm256_extract_epi32 (nth 0 (avx2_ctr s) []) 1) end in  (* :74-78 *)
  Ok (o, st).

(** [avx2.rs:84-112], [:185-204]: [rng_inner], always 64-bit counter additions; output in words. *)
Definition avx2_rng_inner (n : nat) (st : list N) : list N * list N :=
  let c := mm256_broadcast (mm_loadu st 3) in
  let c := mm256_add_epi64 c (mm256_set_epi64x 0 1 0 0) in                               (* :96 *)
  let s := {| avx2_v := avx2_load_v st;
              avx2_ctr := avx2_ctr_loop avx2_N (fun c => mm256_add_epi64 c (mm256_set_epi64x 0 2 0 2)) c |} in
  let vs := avx2_rounds n (avx2_v s) (avx2_ctr s) in                                     (* :187 *)
  let pb := N.of_nat avx2_PAR_BLOCKS in
  let ctr := map (fun c => mm256_add_epi64 c (mm256_set_epi64x 0 pb 0 pb)) (avx2_ctr s) in (* :190-192 *)
  let buf := flat_map (fun v => concat (avx2_store_slots v)) vs in                       (* :194-202 *)
  let st := upd st 12 (mm256_extract_epi32 (nth 0 ctr []) 0) in                          (* :110 *)
  let st := upd st 13 (mm256_extract_epi32 (nth 0 ctr []) 1) in                          (* :111 *)
  (buf, st).
