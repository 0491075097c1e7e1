(** Vector registers and the intrinsics used by the ChaCha backends, from Intel's
    "Intrinsics Guide" and ARM's "Neon Intrinsics Reference" (not from /repo).

    A 128-bit register is the list of its four 32-bit lanes, lane 0 (lowest
    address, least significant) first.  A 256-/512-bit register is the list of its
    two/four 128-bit groups, lowest first.  Lanes denote residues modulo 2^32. *)
From Verif Require Export Word.

Notation m128 := (list N) (only parsing).
Notation m256 := (list (list N)) (only parsing).
Notation m512 := (list (list N)) (only parsing).

Fixpoint map2 {A B C} (f : A -> B -> C) (a : list A) (b : list B) : list C :=
  match a, b with
  | x :: a', y :: b' => f x y :: map2 f a' b'
  | _, _ => []
  end.

(** Destructuring [[a, b, c, d]] of a four-element vector array. *)
Definition on4 {A} (f : A -> A -> A -> A -> list A) (blk : list A) : list A :=
  match blk with [a; b; c; d] => f a b c d | _ => blk end.

(** ** 128-bit, x86 *)
Definition mm_loadu (mem : list N) (i : nat) : m128 := slice mem (4 * i) 4.      (* 16-byte aligned-by-4 word address *)
Definition mm_storeu (v : m128) : list N := bytes_of_words v.
Definition mm_set_epi32 (e3 e2 e1 e0 : N) : m128 := [e0 mod M32; e1 mod M32; e2 mod M32; e3 mod M32].
Definition mm_set_epi64x (e1 e0 : N) : m128 :=
  [e0 mod M32; (e0 / M32) mod M32; e1 mod M32; (e1 / M32) mod M32].
Definition mm_add_epi32 (a b : m128) : m128 := map2 add32 a b.
(** 64-bit lanes are pairs (low word, high word). *)
Definition mm_add_epi64 (a b : m128) : m128 :=
  match a, b with
  | [a0; a1; a2; a3], [b0; b1; b2; b3] =>
      let s0 := (a0 + M32 * a1 + (b0 + M32 * b1)) mod M64 in
      let s1 := (a2 + M32 * a3 + (b2 + M32 * b3)) mod M64 in
      [s0 mod M32; s0 / M32; s1 mod M32; s1 / M32]
  | _, _ => []
  end.
Definition mm_xor (a b : m128) : m128 := map2 xor32 a b.
Definition mm_slli_epi32 (a : m128) (k : N) : m128 := map (fun x => (N.shiftl x k) mod M32) a.
Definition mm_srli_epi32 (a : m128) (k : N) : m128 := map (fun x => N.shiftr (x mod M32) k) a.
Definition mm_rol_epi32 (k : N) (a : m128) : m128 := map (fun x => rotl32 x k) a.
(** Two-bit field [i] of an immediate. *)
Definition imm2 (imm : N) (i : N) : nat := N.to_nat (N.land (N.shiftr imm (2 * i)) 3).
Definition mm_shuffle_epi32 (a : m128) (imm : N) : m128 :=
  [get a (imm2 imm 0); get a (imm2 imm 1); get a (imm2 imm 2); get a (imm2 imm 3)].
(** Byte shuffle: a control byte with bit 7 set gives zero, else its low four bits select. *)
Definition mm_shuffle_epi8 (a mask : m128) : m128 :=
  words_of_bytes
    (map (fun m => if N.testbit m 7 then 0 else get (bytes_of_words a) (N.to_nat (N.land m 15)))
         (bytes_of_words mask)).
Definition mm_extract_epi32 (a : m128) (i : nat) : N := get a i.
Definition mm_cvtsi128_si32 (a : m128) : N := get a 0.

(** ** 256-bit, x86 *)
Definition mm256_broadcast (a : m128) : m256 := [a; a].   (* broadcastsi128_si256, broadcast_i32x4 *)
Definition mm256_set_epi32 (e7 e6 e5 e4 e3 e2 e1 e0 : N) : m256 :=
  [mm_set_epi32 e3 e2 e1 e0; mm_set_epi32 e7 e6 e5 e4].
Definition mm256_set_epi64x (e3 e2 e1 e0 : N) : m256 := [mm_set_epi64x e1 e0; mm_set_epi64x e3 e2].
Definition mm256_add_epi32 (a b : m256) : m256 := map2 mm_add_epi32 a b.
Definition mm256_add_epi64 (a b : m256) : m256 := map2 mm_add_epi64 a b.
Definition mm256_xor (a b : m256) : m256 := map2 mm_xor a b.
Definition mm256_slli_epi32 (a : m256) (k : N) : m256 := map (fun g => mm_slli_epi32 g k) a.
Definition mm256_srli_epi32 (a : m256) (k : N) : m256 := map (fun g => mm_srli_epi32 g k) a.
Definition mm256_rol_epi32 (k : N) (a : m256) : m256 := map (mm_rol_epi32 k) a.
Definition mm256_shuffle_epi32 (a : m256) (imm : N) : m256 := map (fun g => mm_shuffle_epi32 g imm) a.
Definition mm256_shuffle_epi8 (a mask : m256) : m256 := map2 mm_shuffle_epi8 a mask.
Definition mm256_extract_epi32 (a : m256) (i : nat) : N := get (concat a) i.

(** ** 512-bit, x86 *)
Definition mm512_broadcast (a : m128) : m512 := [a; a; a; a].
Definition mm512_set_epi32 (e15 e14 e13 e12 e11 e10 e9 e8 e7 e6 e5 e4 e3 e2 e1 e0 : N) : m512 :=
  [mm_set_epi32 e3 e2 e1 e0; mm_set_epi32 e7 e6 e5 e4;
   mm_set_epi32 e11 e10 e9 e8; mm_set_epi32 e15 e14 e13 e12].
Definition mm512_set_epi64 (e7 e6 e5 e4 e3 e2 e1 e0 : N) : m512 :=
  [mm_set_epi64x e1 e0; mm_set_epi64x e3 e2; mm_set_epi64x e5 e4; mm_set_epi64x e7 e6].
Definition mm512_add_epi32 (a b : m512) : m512 := map2 mm_add_epi32 a b.
Definition mm512_add_epi64 (a b : m512) : m512 := map2 mm_add_epi64 a b.
Definition mm512_xor (a b : m512) : m512 := map2 mm_xor a b.
Definition mm512_rol_epi32 (k : N) (a : m512) : m512 := map (mm_rol_epi32 k) a.
Definition mm512_shuffle_epi32 (a : m512) (imm : N) : m512 := map (fun g => mm_shuffle_epi32 g imm) a.

(** 64-bit view of a 256-/512-bit register, and back. *)
Fixpoint qwords (l : list N) : list (N * N) :=
  match l with lo :: hi :: t => (lo, hi) :: qwords t | _ => [] end.
Fixpoint of_qwords (l : list (N * N)) : list m128 :=
  match l with
  | (a, b) :: (c, d) :: t => [a; b; c; d] :: of_qwords t
  | _ => []
  end.
(** [permutex2var_epi64 a idx b]: each index selects from the concatenation of [a] and
    [b]; only the low 4 (512-bit) or 3 (256-bit) bits of an index are used. *)
Definition permutex2var_epi64 (bits : N) (a : list m128) (idx : list N) (b : list m128) : list m128 :=
  let tbl := qwords (concat a) ++ qwords (concat b) in
  of_qwords (map (fun i => nth (N.to_nat (i mod 2 ^ bits)) tbl (0, 0)) idx).
Definition mm512_permutex2var_epi64 := permutex2var_epi64 4.
Definition mm256_permutex2var_epi64 := permutex2var_epi64 3.
Definition mm512_shuffle_i32x4 (imm : N) (a b : m512) : m512 :=
  [nth (imm2 imm 0) a []; nth (imm2 imm 1) a []; nth (imm2 imm 2) b []; nth (imm2 imm 3) b []].

(** ** NEON *)
Definition vld1q_u32 (mem : list N) : m128 := firstn 4 mem.
Definition vaddq_u32 (a b : m128) : m128 := map2 add32 a b.
Definition vaddq_u64 (a b : m128) : m128 :=       (* on the u64 reinterpretation *)
  match a, b with
  | [a0; a1; a2; a3], [b0; b1; b2; b3] =>
      let s0 := (a0 + M32 * a1 + (b0 + M32 * b1)) mod M64 in
      let s1 := (a2 + M32 * a3 + (b2 + M32 * b3)) mod M64 in
      [s0 mod M32; s0 / M32; s1 mod M32; s1 / M32]
  | _, _ => []
  end.
Definition veorq_u32 (a b : m128) : m128 := map2 xor32 a b.
Definition vorrq_u32 (a b : m128) : m128 := map2 N.lor a b.
Definition vshlq_n_u32 (a : m128) (k : N) : m128 := map (fun x => (N.shiftl x k) mod M32) a.
Definition vshrq_n_u32 (a : m128) (k : N) : m128 := map (fun x => N.shiftr (x mod M32) k) a.
(** Table lookup: out-of-range indices give zero. *)
Definition vqtbl1q_u8 (t idx : list N) : list N :=
  map (fun i => if i <? 16 then get t (N.to_nat i) else 0) idx.
(** 16-bit view of lanes and back. *)
Definition u16s (a : m128) : list N := flat_map (fun x => [x mod 65536; (x / 65536) mod 65536]) a.
Fixpoint of_u16s (l : list N) : m128 :=
  match l with lo :: hi :: t => lo + 65536 * hi :: of_u16s t | _ => [] end.
(** Reverse the 16-bit elements inside each 32-bit container. *)
Fixpoint vrev32q_u16 (l : list N) : list N :=
  match l with x :: y :: t => y :: x :: vrev32q_u16 t | _ => [] end.
Definition vextq_u32 (a b : m128) (n : nat) : m128 := firstn 4 (skipn n (a ++ b)).
Definition vgetq_lane_u32 (a : m128) (i : nat) : N := get a i.
Definition vst1q_u8 (a : m128) : list N := bytes_of_words a.
