(** Model of [chacha20/src/backends/avx512.rs]. *)
From Verif Require Export ChaChaCore ChaChaBackend Simd.

Definition avx512_MAX_PAR_BLOCKS : nat := 16.       (* avx512.rs:21 *)
Definition avx512_BLOCKS_PER_VECTOR : nat := 4.     (* avx512.rs:25 *)
Definition avx512_MAX_N : nat := 4.                 (* avx512.rs:27 *)

(** [avx512.rs:59-63] *)
Record avx512_st := { avx512_state : list m128; avx512_ctr : m128 }.

(** [avx512.rs:69-79] *)
Definition avx512_increment_ctr (var : variant) (amount : nat) (s : avx512_st) : avx512_st :=
  {| avx512_state := avx512_state s;
     avx512_ctr := match var with
                   | Ietf => mm_add_epi32 (avx512_ctr s) (mm_set_epi32 0 0 0 (N.of_nat amount))
                   | Legacy => mm_add_epi64 (avx512_ctr s) (mm_set_epi64x 0 (N.of_nat amount))
                   end |}.

(** [avx512.rs:450-478] *)
Definition avx512_add_xor_rot (vs : list (list m512)) : list (list m512) :=
  let vs := map (on4 (fun a b c d =>
    let a := mm512_add_epi32 a b in
    let d := mm512_xor d a in
    let d := mm512_rol_epi32 16 d in [a; b; c; d])) vs in
  let vs := map (on4 (fun a b c d =>
    let c := mm512_add_epi32 c d in
    let b := mm512_xor b c in
    let b := mm512_rol_epi32 12 b in [a; b; c; d])) vs in
  let vs := map (on4 (fun a b c d =>
    let a := mm512_add_epi32 a b in
    let d := mm512_xor d a in
    let d := mm512_rol_epi32 8 d in [a; b; c; d])) vs in
  map (on4 (fun a b c d =>
    let c := mm512_add_epi32 c d in
    let b := mm512_xor b c in
    let b := mm512_rol_epi32 7 b in [a; b; c; d])) vs.

(** [avx512.rs:411-418] *)
Definition avx512_rows_to_cols (vs : list (list m512)) : list (list m512) :=
  map (on4 (fun a b c d =>
    let c := mm512_shuffle_epi32 c 0x39 in
    let d := mm512_shuffle_epi32 d 0x4E in
    let a := mm512_shuffle_epi32 a 0x93 in [a; b; c; d])) vs.

(** [avx512.rs:439-446] *)
Definition avx512_cols_to_rows (vs : list (list m512)) : list (list m512) :=
  map (on4 (fun a b c d =>
    let c := mm512_shuffle_epi32 c 0x93 in
    let d := mm512_shuffle_epi32 d 0x4E in
    let a := mm512_shuffle_epi32 a 0x39 in [a; b; c; d])) vs.

(** [avx512.rs:367-372] *)
Definition avx512_double_quarter_round (vs : list (list m512)) : list (list m512) :=
  avx512_cols_to_rows (avx512_add_xor_rot (avx512_rows_to_cols (avx512_add_xor_rot vs))).

(** [avx512.rs:343-363]; [nn] is the const generic [N], [n] is [R::COUNT]. *)
Definition avx512_rounds (nn n : nat) (v c : list m512) : list (list m512) :=
  let vs := map (fun i => [nth 0 v []; nth 1 v []; nth 2 v []; nth i c []]) (seq 0 nn) in
  let vs := iter_n n avx512_double_quarter_round vs in
  fold_left (fun vs i =>
    let e := nth i vs [] in
    let e := fold_left (fun e j => upd e j (mm512_add_epi32 (nth j e []) (nth j v []))) (seq 0 3) e in
    let e := upd e 3 (mm512_add_epi32 (nth 3 e []) (nth i c [])) in
    upd vs i e) (seq 0 nn) vs.

(** [avx512.rs:90-133]: the counter vector of group [i]. *)
Definition avx512_ctrs (var : variant) (nn : nat) (ctr : m128) : list m512 :=
  map (fun i =>
    let base := N.of_nat (i * avx512_BLOCKS_PER_VECTOR) in
    match var with
    | Ietf => mm512_add_epi32 (mm512_broadcast ctr)
                (mm512_set_epi32 0 0 0 (base + 3) 0 0 0 (base + 2) 0 0 0 (base + 1) 0 0 0 base)
    | Legacy => mm512_add_epi64 (mm512_broadcast ctr)
                (mm512_set_epi64 0 (base + 3) 0 (base + 2) 0 (base + 1) 0 base)
    end) (seq 0 nn).

(** [avx512.rs:172-201]: the transposition of one group of four result vectors. *)
Definition avx512_transpose (r : list m512) : list m512 :=
  let r0 := nth 0 r [] in let r1 := nth 1 r [] in let r2 := nth 2 r [] in let r3 := nth 3 r [] in
  let abab01 := mm512_permutex2var_epi64 r0 [0; 1; 8; 9; 2; 3; 10; 11] r1 in
  let abab23 := mm512_permutex2var_epi64 r0 [4; 5; 12; 13; 6; 7; 14; 15] r1 in
  let cdcd01 := mm512_permutex2var_epi64 r2 [0; 1; 8; 9; 2; 3; 10; 11] r3 in
  let cdcd23 := mm512_permutex2var_epi64 r2 [4; 5; 12; 13; 6; 7; 14; 15] r3 in
  [mm512_shuffle_i32x4 0x44 abab01 cdcd01;      (* 0b01_00_01_00 *)
   mm512_shuffle_i32x4 0xEE abab01 cdcd01;      (* 0b11_10_11_10 *)
   mm512_shuffle_i32x4 0x44 abab23 cdcd23;
   mm512_shuffle_i32x4 0xEE abab23 cdcd23].

(** [avx512.rs:86-210]; [len] is [blocks.len()].  Destination [dst_index] is written only
    when it is below [len] (:203-208), so the bytes written are consecutive. *)
Definition avx512_gen_blocks_fullwidth (var : variant) (nn n len : nat) (s : avx512_st) : Res (list N * avx512_st) :=
  do _ <- assert_ (len <=? nn * avx512_BLOCKS_PER_VECTOR)%nat;                      (* :88 *)
  let ctrs := avx512_ctrs var nn (avx512_ctr s) in                                  (* :90-133 *)
  let s := avx512_increment_ctr var len s in                                        (* :135 *)
  let result := avx512_rounds nn n (map mm512_broadcast (avx512_state s)) ctrs in   (* :137 *)
  let out := flat_map (fun i =>
      let bl := avx512_transpose (nth i result []) in
      flat_map (fun j =>
        let dst_index := (i * avx512_BLOCKS_PER_VECTOR + j)%nat in
        if (dst_index <? len)%nat then bytes_of_words (concat (nth j bl [])) else []) (seq 0 4))
      (seq 0 nn) in                                                                 (* :139-209 *)
  Ok (out, s).

(** [avx512.rs:534-556] *)
Definition avx512_add_xor_rot_halfwide : list m256 -> list m256 := on4 (fun a b c d =>
  let a := mm256_add_epi32 a b in
  let d := mm256_xor d a in
  let d := mm256_rol_epi32 16 d in
  let c := mm256_add_epi32 c d in
  let b := mm256_xor b c in
  let b := mm256_rol_epi32 12 b in
  let a := mm256_add_epi32 a b in
  let d := mm256_xor d a in
  let d := mm256_rol_epi32 8 d in
  let c := mm256_add_epi32 c d in
  let b := mm256_xor b c in
  let b := mm256_rol_epi32 7 b in
  [a; b; c; d]).
(** [avx512.rs:514-520] *)
Definition avx512_rows_to_cols_halfwide : list m256 -> list m256 := on4 (fun a b c d =>
  let c := mm256_shuffle_epi32 c 0x39 in
  let d := mm256_shuffle_epi32 d 0x4E in
  let a := mm256_shuffle_epi32 a 0x93 in [a; b; c; d]).
(** [avx512.rs:524-530] *)
Definition avx512_cols_to_rows_halfwide : list m256 -> list m256 := on4 (fun a b c d =>
  let c := mm256_shuffle_epi32 c 0x93 in
  let d := mm256_shuffle_epi32 d 0x4E in
  let a := mm256_shuffle_epi32 a 0x39 in [a; b; c; d]).
(** [avx512.rs:505-510] *)
Definition avx512_double_quarter_round_halfwide (v : list m256) : list m256 :=
  avx512_cols_to_rows_halfwide (avx512_add_xor_rot_halfwide
    (avx512_rows_to_cols_halfwide (avx512_add_xor_rot_halfwide v))).
(** [avx512.rs:489-501] *)
Definition avx512_rounds_halfwide (n : nat) (v_in : list m256) : list m256 :=
  map2 mm256_add_epi32 (iter_n n avx512_double_quarter_round_halfwide v_in) v_in.

(** [avx512.rs:215-276] *)
Definition avx512_gen_blocks_halfwidth (var : variant) (n len : nat) (s : avx512_st) : Res (list N * avx512_st) :=
  do _ <- assert_ (len <=? 2)%nat;                                                  (* :216 *)
  let ctr := mm256_broadcast (avx512_ctr s) in                                      (* :218 *)
  let ctr := match var with
             | Ietf => mm256_add_epi32 ctr (mm256_set_epi32 0 0 0 1 0 0 0 0)
             | Legacy => mm256_add_epi64 ctr (mm256_set_epi64x 0 1 0 0)
             end in                                                                 (* :220-228 *)
  let s := avx512_increment_ctr var len s in                                        (* :230 *)
  let st := avx512_state s in
  let bv := avx512_rounds_halfwide n
              [mm256_broadcast (nth 0 st []); mm256_broadcast (nth 1 st []);
               mm256_broadcast (nth 2 st []); ctr] in                               (* :232-237 *)
  let b0 := nth 0 bv [] in let b1 := nth 1 bv [] in let b2 := nth 2 bv [] in let b3 := nth 3 bv [] in
  let block0_ab := mm256_permutex2var_epi64 b0 [0; 1; 4; 5] b1 in
  let block0_cd := mm256_permutex2var_epi64 b2 [0; 1; 4; 5] b3 in
  let block1_ab := mm256_permutex2var_epi64 b0 [2; 3; 6; 7] b1 in
  let block1_cd := mm256_permutex2var_epi64 b2 [2; 3; 6; 7] b3 in                   (* :242-261 *)
  let parts := [(block0_ab, block0_cd); (block1_ab, block1_cd)] in
  let out := flat_map (fun i =>
      if (i <? len)%nat then
        let '(ab, cd) := nth i parts ([], []) in
        bytes_of_words (concat ab) ++ bytes_of_words (concat cd)
      else []) (seq 0 2) in                                                         (* :263-275 *)
  Ok (out, s).

(** [avx512.rs:603-625] *)
Definition avx512_add_xor_rot_quarterwide : list m128 -> list m128 := on4 (fun a b c d =>
  let a := mm_add_epi32 a b in
  let d := mm_xor d a in
  let d := mm_rol_epi32 16 d in
  let c := mm_add_epi32 c d in
  let b := mm_xor b c in
  let b := mm_rol_epi32 12 b in
  let a := mm_add_epi32 a b in
  let d := mm_xor d a in
  let d := mm_rol_epi32 8 d in
  let c := mm_add_epi32 c d in
  let b := mm_xor b c in
  let b := mm_rol_epi32 7 b in
  [a; b; c; d]).
(** [avx512.rs:585-591] *)
Definition avx512_rows_to_cols_quarterwide : list m128 -> list m128 := on4 (fun a b c d =>
  let c := mm_shuffle_epi32 c 0x39 in
  let d := mm_shuffle_epi32 d 0x4E in
  let a := mm_shuffle_epi32 a 0x93 in [a; b; c; d]).
(** [avx512.rs:594-600] *)
Definition avx512_cols_to_rows_quarterwide : list m128 -> list m128 := on4 (fun a b c d =>
  let c := mm_shuffle_epi32 c 0x93 in
  let d := mm_shuffle_epi32 d 0x4E in
  let a := mm_shuffle_epi32 a 0x39 in [a; b; c; d]).
(** [avx512.rs:577-582] *)
Definition avx512_double_quarter_round_quarterwide (v : list m128) : list m128 :=
  avx512_cols_to_rows_quarterwide (avx512_add_xor_rot_quarterwide
    (avx512_rows_to_cols_quarterwide (avx512_add_xor_rot_quarterwide v))).
(** [avx512.rs:562-574] *)
Definition avx512_rounds_quarterwide (n : nat) (v_in : list m128) : list m128 :=
  map2 mm_add_epi32 (iter_n n avx512_double_quarter_round_quarterwide v_in) v_in.

(** [avx512.rs:297-313] *)
Definition avx512_gen_ks_block (var : variant) (n : nat) (s : avx512_st) : list N * avx512_st :=
  let st := avx512_state s in
  let state := [nth 0 st []; nth 1 st []; nth 2 st []; avx512_ctr s] in
  let s := avx512_increment_ctr var 1 s in
  let result := avx512_rounds_quarterwide n state in
  (flat_map (fun row => bytes_of_words (nth row result [])) (seq 0 4), s).

(** [avx512.rs:292-294]: called with exactly 16 blocks ([ParBlocks]); the [assert!] holds. *)
Definition avx512_gen_par_ks_blocks (var : variant) (n : nat) (s : avx512_st) : Res (list N * avx512_st) :=
  avx512_gen_blocks_fullwidth var avx512_MAX_N n avx512_MAX_PAR_BLOCKS s.

(** [avx512.rs:316-338] *)
Definition avx512_gen_tail_blocks (var : variant) (n len : nat) (s : avx512_st) : Res (list N * avx512_st) :=
  do _ <- assert_ (len <? avx512_MAX_PAR_BLOCKS)%nat;
  if (len =? 0)%nat then Ok ([], s)
  else if (len =? 1)%nat then Ok (avx512_gen_ks_block var n s)
  else if (len =? 2)%nat then avx512_gen_blocks_halfwidth var n len s
  else if (len <=? 4)%nat then avx512_gen_blocks_fullwidth var 1 n len s
  else if (len <=? 8)%nat then avx512_gen_blocks_fullwidth var 2 n len s
  else avx512_gen_blocks_fullwidth var avx512_MAX_N n len s.

(** [avx512.rs:284-290].  [gen_par] cannot panic (proved: [avx512_par_ok]); the record's
    total interface maps an (impossible) panic to a sentinel visible to the proofs. *)
Definition avx512_backend (var : variant) (n : nat) : backend avx512_st := {|
  par_blocks := avx512_MAX_PAR_BLOCKS;
  gen_one := avx512_gen_ks_block var n;
  gen_par := fun s => match avx512_gen_par_ks_blocks var n s with Ok r => r | Panic => ([], s) end;
  gen_tail := avx512_gen_tail_blocks var n
|}.

(** [avx512.rs:38-48] *)
Definition avx512_load (st : list N) : avx512_st :=
  {| avx512_state := [mm_loadu st 0; mm_loadu st 1; mm_loadu st 2]; avx512_ctr := mm_loadu st 3 |}.

(** [avx512.rs:32-57] *)
Definition avx512_inner (var : variant) (n : nat) (f : list req) (st : list N) : Res (list N * list N) :=
  do (o, s) <- run_reqs (avx512_backend var n) f (avx512_load st);
  let st := upd st 12 (mm_extract_epi32 (avx512_ctr s) 0) in                             (* :53 *)
  let st := if (counter_size var =? 8)%nat
            then upd st 13 (mm_extract_epi32 (avx512_ctr s) 1) else st in                (* :54-56 *)
  Ok (o, st).
