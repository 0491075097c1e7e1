(** The arrays that the portable code keeps in its own local variables, and what is in them
    when the function returns.

    Nothing wipes a local array of numbers: integers and arrays have no [Drop], and no function
    of the five crates calls [zeroize] on a local.  Each function below is the one of the same
    name in the model of its crate, and returns as well the final contents of its locals and
    of those of the functions it calls.
    Simplifications: only named arrays, arrays passed by value and arrays returned into a
    temporary are recorded, not single numbers, references or vector registers.  A local that
    is the function's result, or a field of it, is built in the place of the result and
    not recorded; a compiler may leave further copies.  Later calls may overwrite the locals;
    the model does not. *)
Require Import String.
From Verif Require Import Word Res SpecStream ChaChaCore ChaChaSoft XChaCha Salsa Rabbit Hc256 Rc4 Ciphers BlockRng ChaChaRng.

Notation locals := (list (string * list N)).
Local Open Scope string_scope.

(** ** [chacha20] *)
(** [chacha20/src/xchacha.rs:113-153]: [state] stays, [output] is the result. *)
Definition hchacha_l (n : nat) (key input : list N) : list N * locals :=
  let state := (repeat 0 16)%list in
  let state := (CONSTANTS ++ skipn 4 state)%list in
  let state := (firstn 4 state ++ zip_assign (slice state 4 8) (words_of_bytes key) ++ skipn 12 state)%list in
  let state := (firstn 12 state ++ zip_assign (slice state 12 4) (words_of_bytes input))%list in
  let state := iter_n n double_round state in
  ((bytes_of_words (firstn 4 state) ++ bytes_of_words (skipn 12 state))%list, [("state", state)]).
(** [chacha20/src/lib.rs:138-191]: the only array, [state], is a field of the result. *)
Definition new_internal_l (v : variant) (key iv : list N) : Res (list N * locals) :=
  do st <- new_internal v key iv; Ok (st, []).
(** [chacha20/src/xchacha.rs:57-66]: [subkey] and [nonce] stay. *)
Definition xchacha_new_l (n : nat) (key iv : list N) : Res (list N * locals) :=
  do _ <- assert_ (List.length (firstn 16 iv) =? 16)%nat;
  let (subkey, l1) := hchacha_l n key (firstn 16 iv) in
  let nonce := repeat 0 12 in
  do _ <- assert_ (List.length (skipn 4 nonce) =? List.length (skipn 16 iv))%nat;
  let nonce := (firstn 4 nonce ++ skipn 16 iv)%list in
  do (st, l2) <- new_internal_l Ietf subkey nonce;
  Ok (st, (l1 ++ l2 ++ [("subkey", subkey); ("nonce", nonce)])%list).
(** [chacha20/src/backends/soft.rs:33-45]: [res] stays. *)
Definition soft_gen_ks_block_l (v : variant) (n : nat) (st : list N) : list N * list N * locals :=
  let res := run_rounds n st in
  let ctr := N.lor (N.shiftl (get st 13) 32) (get st 12) in
  let ctr := add64 ctr 1 in
  let st := upd st 12 (as_u32 ctr) in
  let st := if (counter_size v =? 8)%nat then upd st 13 (as_u32 (N.shiftr ctr 32)) else st in
  (bytes_of_words res, st, [("res", res)]).

(** [chacha20/src/rng.rs:142-147]: [seed] comes by value. *)
Definition rng_from_seed_l (seed : list N) : Res (rng * locals) :=
  do (core, l) <- new_internal_l Legacy seed (repeat 0 8); Ok (b_new core, (l ++ [("seed", seed)])%list).
(** [chacha20/src/rng.rs:297-313]: [seed], [stream] and [word_pos] stay; [get_seed]'s and
    [get_stream]'s [result] [:273-290]: the former is the caller's [seed], the latter stays. *)
Definition serialize_state_l (ck : bool) (r : rng) : Res (list N * locals) :=
  let seed := get_seed r in
  let stream := to_le 8 (get_stream r) in
  let word_pos := to_le 16 (get_word_pos r) in
  do _ <- assert_ (negb ck || bytes_eqb (skipn 9 word_pos) (repeat 0 7));
  do _ <- assert_ ((List.length seed =? 32) && (List.length stream =? 8))%nat;
  Ok ((seed ++ stream ++ firstn 9 word_pos)%list, [("result", stream); ("seed", seed); ("stream", stream); ("word_pos", word_pos)]).
(** [chacha20/src/rng.rs:317-337]: [seed] and [stream] are references; [word_pos_buf] stays. *)
Definition deserialize_state_l (G : list N -> list N * list N) (state : list N) : Res (rng * locals) :=
  let seed := firstn 32 state in
  let stream := firstn 8 (skipn 32 state) in
  let word_pos_raw := skipn 40 state in
  do _ <- assert_ ((List.length seed =? 32) && (List.length stream =? 8) && (List.length word_pos_raw =? 9))%nat;
  let word_pos_buf := (word_pos_raw ++ repeat 0 7)%list in
  do (core, l) <- new_internal_l Legacy seed stream;
  do r <- rng_set_word_pos G (b_new core) (from_le word_pos_buf);
  Ok (r, (l ++ [("word_pos_buf", word_pos_buf)])%list).
(** [chacha20/src/rng.rs:175-181]: the two results of [get_seed] are temporaries.  [&&] stops at
    the first difference; the arrays of [get_stream] are not recorded. *)
Definition rng_eq_l (a b : rng) : bool * locals :=
  let sa := get_seed a in let sb := get_seed b in
  (bytes_eqb sa sb && (get_stream a =? get_stream b)%N && (get_word_pos a =? get_word_pos b)%N,
   [("self.get_seed()", sa); ("rhs.get_seed()", sb)]).

(** ** [salsa20] *)
(** [salsa20/src/xsalsa.rs:92-139]: [state] stays, [output] is the result; [key_idx] is constant. *)
Definition hsalsa_l (n : nat) (key input : list N) : list N * locals :=
  let state := repeat 0 16 in
  let state := upd state 0 (get S_CONSTANTS 0) in
  let state := set_words state 1 (words_of_bytes (slice key 0 16)) in
  let state := upd state 5 (get S_CONSTANTS 1) in
  let state := set_words state 6 (words_of_bytes input) in
  let state := upd state 10 (get S_CONSTANTS 2) in
  let state := set_words state 11 (words_of_bytes (skipn 16 key)) in
  let state := upd state 15 (get S_CONSTANTS 3) in
  let state := iter_n n s_double_round state in
  let key_idx := [0; 5; 10; 15; 6; 7; 8; 9]%nat in
  (flat_map (fun i => to_le 4 (get state i)) key_idx, [("state", state)]).
(** [salsa20/src/lib.rs:85-114]: the only array, [state], is a field of the result. *)
Definition salsa_new_l (key iv : list N) : list N * locals := (salsa_new key iv, []).
(** [salsa20/src/xsalsa.rs:44-49]: [subkey] and [padded_iv] stay. *)
Definition xsalsa_new_l (n : nat) (key iv : list N) : list N * locals :=
  let (subkey, l1) := hsalsa_l n key (firstn 16 iv) in
  let padded_iv := skipn 16 iv in
  let (st, l2) := salsa_new_l subkey padded_iv in
  (st, (l1 ++ l2 ++ [("subkey", subkey); ("padded_iv", padded_iv)])%list).
(** [salsa20/src/backends/soft.rs:22-30]: [res] stays. *)
Definition salsa_gen_ks_block_l (ck : bool) (n : nat) (st : list N) : Res (list N * list N * locals) :=
  let res := s_run_rounds n st in
  do pos <- add_ck ck M64 (salsa_get_pos st) 1;
  let st := salsa_set_pos st pos in
  Ok (bytes_of_words res, st, [("res", res)]).

(** ** [rabbit] *)
(** [rabbit/src/lib.rs:134-162]: [g] stays. *)
Definition next_state_l (ck : bool) (s : rstate) : Res (rstate * locals) :=
  let g := repeat 0 8 in
  do s <- counter_update ck s;
  do g <- for_ (seq 0 8) (g_step ck s) g;
  let x := r_x s in
  let x := upd x 0 (add32 (add32 (get g 0) (rotl32 (get g 7) 16)) (rotl32 (get g 6) 16)) in
  let x := upd x 1 (add32 (add32 (get g 1) (rotl32 (get g 0) 8)) (get g 7)) in
  let x := upd x 2 (add32 (add32 (get g 2) (rotl32 (get g 1) 16)) (rotl32 (get g 0) 16)) in
  let x := upd x 3 (add32 (add32 (get g 3) (rotl32 (get g 2) 8)) (get g 1)) in
  let x := upd x 4 (add32 (add32 (get g 4) (rotl32 (get g 3) 16)) (rotl32 (get g 2) 16)) in
  let x := upd x 5 (add32 (add32 (get g 5) (rotl32 (get g 4) 8)) (get g 3)) in
  let x := upd x 6 (add32 (add32 (get g 6) (rotl32 (get g 5) 16)) (rotl32 (get g 4) 16)) in
  let x := upd x 7 (add32 (add32 (get g 7) (rotl32 (get g 6) 8)) (get g 5)) in
  Ok ({| r_x := x; r_c := r_c s; r_carry := r_carry s |}, [("g", g)]).
Definition next_state4_l (ck : bool) (s : rstate) : Res (rstate * locals) :=
  for_ (seq 0 4) (fun _ (p : rstate * locals) => let (s, l) := p in do (s', l') <- next_state_l ck s; Ok (s', (l ++ l')%list)) (s, []).
(** [rabbit/src/lib.rs:60-96]: [key] comes by value ([:227]) and [k] stays; [x] and [c] are
    fields of the result. *)
Definition setup_key_l (ck : bool) (key : list N) : Res (rstate * locals) :=
  let k := map (subkey key) (seq 0 8) in
  let (x, c) := fold_left (fun s j => setup_step k j s) (seq 0 8) (repeat 0 8, repeat 0 8) in
  do (s, l) <- next_state4_l ck {| r_x := x; r_c := c; r_carry := 0 |};
  Ok ({| r_x := r_x s;
         r_c := fold_left (fun c j => upd c j (xor32 (get c j) (get (r_x s) ((j + 4) mod 8)%nat))) (seq 0 8) (r_c s);
         r_carry := r_carry s |}, (l ++ [("key", key); ("k", k)])%list).
(** [rabbit/src/lib.rs:99-121]: [iv] comes by value ([:268]) and [i] stays. *)
Definition setup_iv_l (ck : bool) (iv : list N) (s : rstate) : Res (rstate * locals) :=
  let i0 := iv_le iv 0 in
  let i2 := iv_le iv 4 in
  let i1 := N.lor (N.shiftr i0 16) (N.land i2 0xFFFF0000) in
  let i3 := N.lor (shl32 i2 16) (N.land i0 0x0000FFFF) in
  let c := r_c s in
  let c := upd c 0 (xor32 (get c 0) i0) in
  let c := upd c 1 (xor32 (get c 1) i1) in
  let c := upd c 2 (xor32 (get c 2) i2) in
  let c := upd c 3 (xor32 (get c 3) i3) in
  let c := upd c 4 (xor32 (get c 4) i0) in
  let c := upd c 5 (xor32 (get c 5) i1) in
  let c := upd c 6 (xor32 (get c 6) i2) in
  let c := upd c 7 (xor32 (get c 7) i3) in
  do (s, l) <- next_state4_l ck {| r_x := r_x s; r_c := c; r_carry := r_carry s |};
  Ok (s, (l ++ [("iv", iv); ("i", [i0; i1; i2; i3])])%list).
(** [rabbit/src/lib.rs:224-228] *)
Definition rabbit_key_only_l (ck : bool) (key : list N) : Res (rstate * locals) := setup_key_l ck key.
(** [rabbit/src/lib.rs:266-270] *)
Definition rabbit_new_l (ck : bool) (key iv : list N) : Res (rstate * locals) :=
  do (s, l1) <- rabbit_key_only_l ck key; do (s, l2) <- setup_iv_l ck iv s; Ok (s, (l1 ++ l2)%list).

(** ** [hc-256] *)
(** [hc-256/src/lib.rs:60-108]: [data] stays; [out] is the result. *)
Definition hc_new_l (ck : bool) (usz : N) (key iv : list N) : Res (hc * locals) :=
  let data := repeat 0 (N.to_nat INIT_SIZE) in
  do data <- for_ (seq 0 (N.to_nat KEY_WORDS)) (fun i data => do w <- le_word key (N.of_nat i); set_idx data (N.of_nat i) w) data;
  do data <- for_ (seq 0 (N.to_nat IV_WORDS)) (fun i data => do w <- le_word iv (N.of_nat i); set_idx data (N.of_nat i + KEY_WORDS) w) data;
  do data <- for_ (seq 16 2644) (expand_step ck usz) data;
  do p <- slice_ck data 512 1024;
  do q <- slice_ck data 1536 1024;
  let s := {| h_p := p; h_q := q; h_idx := 0 |} in
  do s <- for_ (seq 0 4096) (fun _ s => do (_, s) <- gen_word ck usz s; Ok s) s;
  Ok (s, [("data", data)]).

(** ** [rc4] *)
(** [rc4/src/lib.rs:57-77]: the only array, [state], is a field of the result. *)
Definition new_from_slice_l (key : list N) : Res (option (rc4 * locals)) :=
  do r <- new_from_slice key; Ok (match r with Some s => Some (s, []) | None => None end).

(** ** The constructors of the eight cipher types *)
(** What making a cipher leaves in locals.  The public types' [new] is
    [StreamCipherCoreWrapper::from_core(C::new(..))] (environment contract): it adds none. *)
Definition left_behind (e : env) (c : cipher) : Res locals :=
  match c with
  | CChaCha v n key iv => do (_, l) <- new_internal_l v key iv; Ok l
  | CXChaCha n key iv => do (_, l) <- xchacha_new_l n key iv; Ok l
  | CSalsa n key iv => Ok (snd (salsa_new_l key iv))
  | CXSalsa n key iv => Ok (snd (xsalsa_new_l n key iv))
  | CRabbit key iv => do (_, l) <- rabbit_new_l (e_ck e) key iv; Ok l
  | CRabbitKeyOnly key => do (_, l) <- rabbit_key_only_l (e_ck e) key; Ok l
  | CHc256 key iv => do (_, l) <- hc_new_l (e_ck e) (2 ^ e_usz e) key iv; Ok l
  | CRc4 key => do r <- new_from_slice_l key; match r with None => Panic | Some (_, l) => Ok l end
  end.
