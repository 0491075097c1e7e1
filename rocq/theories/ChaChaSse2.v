(** Model of [chacha20/src/backends/sse2.rs]. *)
From Verif Require Export ChaChaCore ChaChaBackend Simd.

Definition sse2_PAR_BLOCKS : nat := 4.                              (* sse2.rs:28 *)

(** [match size_of::<V::Counter>() { 4 => add_epi32, 8 => add_epi64 }] with constant
    [k] in the lowest lane: [sse2.rs:79-83], [:95-99], [:160-164], [:175-179]. *)
Definition sse2_add_ctr (v : variant) (r : m128) (k : N) : m128 :=
  match v with
  | Ietf => mm_add_epi32 r (mm_set_epi32 0 0 0 k)
  | Legacy => mm_add_epi64 r (mm_set_epi64x 0 k)
  end.

(** [sse2.rs:271-293] *)
Definition sse2_add_xor_rot (blocks : list (list m128)) : list (list m128) :=
  map (on4 (fun a b c d =>
    let a := mm_add_epi32 a b in
    let d := mm_xor d a in
    let d := mm_xor (mm_slli_epi32 d 16) (mm_srli_epi32 d 16) in
    let c := mm_add_epi32 c d in
    let b := mm_xor b c in
    let b := mm_xor (mm_slli_epi32 b 12) (mm_srli_epi32 b 20) in
    let a := mm_add_epi32 a b in
    let d := mm_xor d a in
    let d := mm_xor (mm_slli_epi32 d 8) (mm_srli_epi32 d 24) in
    let c := mm_add_epi32 c d in
    let b := mm_xor b c in
    let b := mm_xor (mm_slli_epi32 b 7) (mm_srli_epi32 b 25) in
    [a; b; c; d])) blocks.

(** [sse2.rs:232-239]; immediates [0b_00_11_10_01], [0b_01_00_11_10], [0b_10_01_00_11]. *)
Definition sse2_rows_to_cols (blocks : list (list m128)) : list (list m128) :=
  map (on4 (fun a b c d =>
    let c := mm_shuffle_epi32 c 0x39 in
    let d := mm_shuffle_epi32 d 0x4E in
    let a := mm_shuffle_epi32 a 0x93 in
    [a; b; c; d])) blocks.

(** [sse2.rs:260-267]; immediates [0b_10_01_00_11], [0b_01_00_11_10], [0b_00_11_10_01]. *)
Definition sse2_cols_to_rows (blocks : list (list m128)) : list (list m128) :=
  map (on4 (fun a b c d =>
    let c := mm_shuffle_epi32 c 0x93 in
    let d := mm_shuffle_epi32 d 0x4E in
    let a := mm_shuffle_epi32 a 0x39 in
    [a; b; c; d])) blocks.

(** [sse2.rs:188-193] *)
Definition sse2_double_quarter_round (v : list (list m128)) : list (list m128) :=
  sse2_cols_to_rows (sse2_add_xor_rot (sse2_rows_to_cols (sse2_add_xor_rot v))).

(** [sse2.rs:157-184]; [n] is [R::COUNT]. *)
Definition sse2_rounds (var : variant) (n : nat) (v : list m128) : list (list m128) :=
  let res := repeat v 4 in                                                       (* :158 *)
  let res := fold_left (fun res block =>
      upd res block (let r := nth block res [] in
                     upd r 3 (sse2_add_ctr var (nth 3 r []) (N.of_nat block))))
      (seq 1 (sse2_PAR_BLOCKS - 1)) res in                                       (* :159-165 *)
  let res := iter_n n sse2_double_quarter_round res in                           (* :167-169 *)
  fold_left (fun res block =>
      let r := nth block res [] in
      let r := fold_left (fun r i => upd r i (mm_add_epi32 (nth i r []) (nth i v []))) (seq 0 3) r in
      let ctr := sse2_add_ctr var (nth 3 v []) (N.of_nat block) in
      let r := upd r 3 (mm_add_epi32 (nth 3 r []) ctr) in
      upd res block r)
      (seq 0 sse2_PAR_BLOCKS) res.                                               (* :171-181 *)

(** [sse2.rs:76-90]; backend state is [v: [__m128i; 4]]. *)
Definition sse2_gen_ks_block (var : variant) (n : nat) (v : list m128) : list N * list m128 :=
  let res := sse2_rounds var n v in
  let v := upd v 3 (sse2_add_ctr var (nth 3 v []) 1) in
  (flat_map (fun i => mm_storeu (nth i (nth 0 res []) [])) (seq 0 4), v).

(** [sse2.rs:92-108]: vector [i] of block [block] goes to vector slot [i + block * PAR_BLOCKS],
    i.e. the blocks are written consecutively. *)
Definition sse2_gen_par_ks_blocks (var : variant) (n : nat) (v : list m128) : list N * list m128 :=
  let res := sse2_rounds var n v in
  let v := upd v 3 (sse2_add_ctr var (nth 3 v []) (N.of_nat sse2_PAR_BLOCKS)) in
  (flat_map (fun block => flat_map (fun i => mm_storeu (nth i (nth block res []) [])) (seq 0 4))
     (seq 0 sse2_PAR_BLOCKS), v).

(** [sse2.rs:69-74]; [gen_tail_blocks] is the trait default. *)
Definition sse2_backend (var : variant) (n : nat) : backend (list m128) := {|
  par_blocks := sse2_PAR_BLOCKS;
  gen_one := sse2_gen_ks_block var n;
  gen_par := sse2_gen_par_ks_blocks var n;
  gen_tail := default_tail sse2_PAR_BLOCKS (sse2_gen_ks_block var n)
|}.

(** [sse2.rs:39-48], [:119-128] *)
Definition sse2_load (st : list N) : list m128 :=
  [mm_loadu st 0; mm_loadu st 1; mm_loadu st 2; mm_loadu st 3].

(** [sse2.rs:33-56] *)
Definition sse2_inner (var : variant) (n : nat) (f : list req) (st : list N) : Res (list N * list N) :=
  do (o, v) <- run_reqs (sse2_backend var n) f (sse2_load st);
  let st := upd st 12 (mm_cvtsi128_si32 (nth 3 v [])) in                            (* :52 *)
  let st := if (counter_size var =? 8)%nat
            then upd st 13 (mm_extract_epi32 (nth 3 v []) 1) else st in             (* :53-55 *)
  Ok (o, st).

(** [sse2.rs:114-153]: [rng_inner] and [Backend::gen_ks_blocks]; output in words. *)
Definition sse2_rng_inner (var : variant) (n : nat) (st : list N) : list N * list N :=
  let v := sse2_load st in
  let res := sse2_rounds var n v in                                                 (* :142 *)
  let v := upd v 3 (mm_add_epi64 (nth 3 v []) (mm_set_epi64x 0 (N.of_nat sse2_PAR_BLOCKS))) in (* :143 *)
  let buf := flat_map (fun block => flat_map (fun i => nth i (nth block res []) []) (seq 0 4))
               (seq 0 sse2_PAR_BLOCKS) in                                           (* :145-150 *)
  let st := upd st 12 (mm_cvtsi128_si32 (nth 3 v [])) in                            (* :132 *)
  let st := upd st 13 (mm_extract_epi32 (nth 3 v []) 1) in                          (* :133 *)
  (buf, st).
