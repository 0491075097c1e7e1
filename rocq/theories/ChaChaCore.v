(** Model of [chacha20/src/lib.rs], [variants.rs], [chacha.rs], [legacy.rs]:
    core state, construction, block position.  The [tokens] field is CPU feature
    information only; see [ChaChaDispatch]. *)
From Verif Require Export Word Res.

(** [chacha20/src/variants.rs:32,59]: the two (sealed) variants. *)
Inductive variant := Ietf | Legacy.

(** [size_of::<V::Counter>()], [variants.rs:37] ([u32]) and [:66] ([u64]). *)
Definition counter_size (v : variant) : nat := match v with Ietf => 4 | Legacy => 8 end.

(** [chacha20/src/lib.rs:47] *)
Definition CONSTANTS : list N := [0x61707865; 0x3320646e; 0x79622d32; 0x6b206574].

(** [dst.iter_mut().zip(src)] assignment loop: overwrite a prefix of [dst]. *)
Fixpoint zip_assign (dst src : list N) : list N :=
  match dst, src with
  | _ :: dst', s :: src' => s :: zip_assign dst' src'
  | _, _ => dst
  end.

(** [chacha20/src/lib.rs:139-190] ([tokens] omitted).  [key] has type [&[u8; 32]]:
    its length is guaranteed by the type, hence not checked here. *)
Definition new_internal (v : variant) (key iv : list N) : Res (list N) :=
  do _ <- assert_ (Nat.eqb (length iv) 4 || Nat.eqb (length iv) 8 || Nat.eqb (length iv) 12); (* :140 *)
  let state := repeat 0 16 in                                       (* :142 *)
  let ctr_size := (counter_size v / 4)%nat in                       (* :144 *)
  let const_dst := firstn 4 state in let state_rem := skipn 4 state in          (* :145 *)
  let key_dst := firstn 8 state_rem in let state_rem := skipn 8 state_rem in    (* :146 *)
  let ctr_dst := firstn ctr_size state_rem in
  let iv_dst := skipn ctr_size state_rem in                         (* :147 *)
  do _ <- assert_ (length const_dst =? length CONSTANTS)%nat;       (* :149, copy_from_slice *)
  let const_dst := CONSTANTS in
  let key_dst := zip_assign key_dst (words_of_bytes key) in         (* :154-156 *)
  do _ <- assert_ (4 * length iv_dst =? length iv)%nat;             (* :158 *)
  let iv_dst := zip_assign iv_dst (words_of_bytes iv) in            (* :159-161 *)
  Ok (const_dst ++ key_dst ++ ctr_dst ++ iv_dst).

(** [variants.rs:40] (Ietf), [:69] (Legacy), through [lib.rs:195]: [row] is [state[12..]]. *)
Definition get_block_pos (v : variant) (st : list N) : N :=
  match v with
  | Ietf => get st 12
  | Legacy => N.lor (N.shiftl (get st 13) 32) (get st 12)
  end.

(** [variants.rs:45] (Ietf), [:74] (Legacy), through [lib.rs:201]. *)
Definition set_block_pos (v : variant) (st : list N) (pos : N) : list N :=
  match v with
  | Ietf => upd st 12 pos
  | Legacy => upd (upd st 12 (as_u32 (N.land pos 0xFFFFFFFF))) 13 (as_u32 (N.shiftr pos 32))
  end.

(** [u32::MAX]/[u64::MAX] for [V::Counter]. *)
Definition counter_max (v : variant) : N := match v with Ietf => M32 - 1 | Legacy => M64 - 1 end.

(** [variants.rs:50-53] (Ietf), [:80-83] (Legacy): the subtraction cannot overflow as
    [block_pos] has type [V::Counter]; [try_into::<usize>().ok()] depends on the
    pointer width [usz] (bits). *)
Definition remaining_blocks (v : variant) (usz : N) (block_pos : N) : option N :=
  let remaining := counter_max v - block_pos in
  if remaining <? 2 ^ usz then Some remaining else None.

(** [chacha20/src/lib.rs:321-343] *)
Definition quarter_round (a b c d : nat) (state : list N) : list N :=
  let state := upd state a (add32 (get state a) (get state b)) in
  let state := upd state d (xor32 (get state d) (get state a)) in
  let state := upd state d (rotl32 (get state d) 16) in
  let state := upd state c (add32 (get state c) (get state d)) in
  let state := upd state b (xor32 (get state b) (get state c)) in
  let state := upd state b (rotl32 (get state b) 12) in
  let state := upd state a (add32 (get state a) (get state b)) in
  let state := upd state d (xor32 (get state d) (get state a)) in
  let state := upd state d (rotl32 (get state d) 8) in
  let state := upd state c (add32 (get state c) (get state d)) in
  let state := upd state b (xor32 (get state b) (get state c)) in
  let state := upd state b (rotl32 (get state b) 7) in
  state.

(** Loop body shared by [backends/soft.rs:69-81] and [xchacha.rs:128-140]. *)
Definition double_round (res : list N) : list N :=
  let res := quarter_round 0 4 8 12 res in
  let res := quarter_round 1 5 9 13 res in
  let res := quarter_round 2 6 10 14 res in
  let res := quarter_round 3 7 11 15 res in
  let res := quarter_round 0 5 10 15 res in
  let res := quarter_round 1 6 11 12 res in
  let res := quarter_round 2 7 8 13 res in
  let res := quarter_round 3 4 9 14 res in
  res.

(** [Rounds::COUNT] of the three public markers, [lib.rs:62-80]. *)
Definition R8 : nat := 4.
Definition R12 : nat := 6.
Definition R20 : nat := 10.
