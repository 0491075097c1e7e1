(** Model of [salsa20/src/lib.rs], [backends/soft.rs], [xsalsa.rs]. *)
From Verif Require Export Word Res.

(** [salsa20/src/lib.rs:53] *)
Definition S_CONSTANTS : list N := [0x61707865; 0x3320646e; 0x79622d32; 0x6b206574].

(** Loop [for (i, chunk) in ... .enumerate() { state[at + i] = from_le(chunk) }]. *)
Fixpoint set_words (st : list N) (at_ : nat) (ws : list N) : list N :=
  match ws with
  | [] => st
  | w :: t => set_words (upd st at_ w) (S at_) t
  end.

(** [salsa20/src/lib.rs:89-117] ([KeyIvInit::new]).  [key : &[u8; 32]], [iv : &[u8; 8]]:
    lengths are guaranteed by the types, so the slices and [unwrap]s cannot fail. *)
Definition salsa_new (key iv : list N) : list N :=
  let state := repeat 0 16 in                                        (* :90 *)
  let state := upd state 0 (get S_CONSTANTS 0) in                    (* :91 *)
  let state := set_words state 1 (words_of_bytes (firstn 16 key)) in (* :93-95 *)
  let state := upd state 5 (get S_CONSTANTS 1) in                    (* :97 *)
  let state := set_words state 6 (words_of_bytes iv) in              (* :99-101 *)
  let state := upd state 8 0 in                                      (* :103 *)
  let state := upd state 9 0 in                                      (* :104 *)
  let state := upd state 10 (get S_CONSTANTS 2) in                   (* :105 *)
  let state := set_words state 11 (words_of_bytes (skipn 16 key)) in (* :107-109 *)
  upd state 15 (get S_CONSTANTS 3).                                  (* :111 *)

(** [salsa20/src/lib.rs:68-73] *)
Definition from_raw_state (state : list N) : list N := state.

(** [salsa20/src/lib.rs:135-137]; the [u64] sum of [u32 + (u32 << 32)] cannot overflow. *)
Definition salsa_get_pos (st : list N) : N := get st 8 + N.shiftl (get st 9) 32.
(** [salsa20/src/lib.rs:140-143] *)
Definition salsa_set_pos (st : list N) (pos : N) : list N :=
  let st := upd st 8 (as_u32 (N.land pos 0xffffffff)) in
  upd st 9 (as_u32 (N.land (N.shiftr pos 32) 0xffffffff)).
(** [salsa20/src/lib.rs:122-125]; [usz]: pointer width. *)
Definition salsa_remaining (usz : N) (st : list N) : option N :=
  let rem := (M64 - 1) - salsa_get_pos st in
  if rem <? 2 ^ usz then Some rem else None.

(** [salsa20/src/backends/soft.rs:35-46] *)
Definition s_quarter_round (a b c d : nat) (state : list N) : list N :=
  let state := upd state b (xor32 (get state b) (rotl32 (add32 (get state a) (get state d)) 7)) in
  let state := upd state c (xor32 (get state c) (rotl32 (add32 (get state b) (get state a)) 9)) in
  let state := upd state d (xor32 (get state d) (rotl32 (add32 (get state c) (get state b)) 13)) in
  upd state a (xor32 (get state a) (rotl32 (add32 (get state d) (get state c)) 18)).

(** Loop body of [soft.rs:52-64] and [xsalsa.rs:117-129]. *)
Definition s_double_round (res : list N) : list N :=
  let res := s_quarter_round 0 4 8 12 res in
  let res := s_quarter_round 5 9 13 1 res in
  let res := s_quarter_round 10 14 2 6 res in
  let res := s_quarter_round 15 3 7 11 res in
  let res := s_quarter_round 0 1 2 3 res in
  let res := s_quarter_round 5 6 7 4 res in
  let res := s_quarter_round 10 11 8 9 res in
  s_quarter_round 15 12 13 14 res.

(** [soft.rs:66-68]: element-wise wrapping addition. *)
Fixpoint s_zip_add (res state : list N) : list N :=
  match res, state with
  | s1 :: res', s0 :: state' => add32 s1 s0 :: s_zip_add res' state'
  | _, _ => res
  end.
(** [soft.rs:49-70]; [n] is [R::USIZE]. *)
Definition s_run_rounds (n : nat) (state : list N) : list N :=
  s_zip_add (iter_n n s_double_round state) state.

(** [soft.rs:22-30]; [ck] is [overflow-checks]: the [+ 1] is a plain addition. *)
Definition salsa_gen_ks_block (ck : bool) (n : nat) (st : list N) : Res (list N * list N) :=
  let res := s_run_rounds n st in                                    (* :23 *)
  do pos <- add_ck ck M64 (salsa_get_pos st) 1;                      (* :25 *)
  let st := salsa_set_pos st pos in                                  (* :25 *)
  Ok (bytes_of_words res, st).                                       (* :27-29 *)

(** [lib.rs:126-128] with [cipher]'s closures ([ParBlocksSize = U1]: one by one). *)
Fixpoint salsa_write (ck : bool) (n : nat) (k : nat) (st : list N) : Res (list N * list N) :=
  match k with
  | O => Ok ([], st)
  | S k' => do (o, st1) <- salsa_gen_ks_block ck n st;
            do (o', st2) <- salsa_write ck n k' st1; Ok (o ++ o', st2)
  end.

(** [xsalsa.rs:92-139]; [n] is [R::USIZE]. *)
Definition hsalsa (n : nat) (key input : list N) : list N :=
  let state := repeat 0 16 in                                        (* :98 *)
  let state := upd state 0 (get S_CONSTANTS 0) in                    (* :99 *)
  let state := set_words state 1 (words_of_bytes (slice key 0 16)) in (* :100-103 *)
  let state := upd state 5 (get S_CONSTANTS 1) in                    (* :104 *)
  let state := set_words state 6 (words_of_bytes input) in           (* :105-108 *)
  let state := upd state 10 (get S_CONSTANTS 2) in                   (* :109 *)
  let state := set_words state 11 (words_of_bytes (skipn 16 key)) in (* :110-113 *)
  let state := upd state 15 (get S_CONSTANTS 3) in                   (* :114 *)
  let state := iter_n n s_double_round state in                      (* :117-129 *)
  let key_idx := [0; 5; 10; 15; 6; 7; 8; 9]%nat in                   (* :132 *)
  flat_map (fun i => to_le 4 (get state i)) key_idx.                 (* :134-136 *)

(** [xsalsa.rs:44-49] *)
Definition xsalsa_new (n : nat) (key iv : list N) : list N :=
  let subkey := hsalsa n key (firstn 16 iv) in                       (* :45 *)
  let padded_iv := skipn 16 iv in                                    (* :46-47 *)
  salsa_new subkey padded_iv.                                        (* :48 *)
