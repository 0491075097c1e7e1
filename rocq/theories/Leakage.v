(** Leakage-instrumented version of the portable ChaCha and Salsa code: the same functions
    as in [ChaChaCore], [ChaChaSoft], [XChaCha], [Salsa], writing a trace of every branch
    outcome and every array index, in program order.  [LeakageProofs] proves that erasing
    the traces gives back exactly those functions.

    Leakage model: arithmetic, shifts and rotations by constants leak nothing; a [for]
    loop leaks one taken branch per iteration and one not taken; [assert!] and [if] leak
    their outcome; an array or chunk access leaks its index (not its contents). *)
From Verif Require Export Word Res.
From Verif Require Import ChaChaCore XChaCha Salsa Rc4.

Inductive event := Br (b : bool) | Rd (i : nat) | Wr (i : nat).
Definition L (A : Type) : Type := A * list event.
Definition ret {A} (x : A) : L A := (x, []).
Definition lbind {A B} (m : L A) (f : A -> L B) : L B :=
  let (x, t) := m in let (y, u) := f x in (y, t ++ u).
Definition emit (t : list event) : L unit := (tt, t).
Notation "x <~ m ;; f" := (lbind m (fun x => f)) (at level 60, m at next level, right associativity).
Definition value {A} (m : L A) : A := fst m.
Definition trace {A} (m : L A) : list event := snd m.

(** [state[i]] as a value and as a place. *)
Definition rd (st : list N) (i : nat) : L N := (get st i, [Rd i]).
Definition wr (st : list N) (i : nat) (x : N) : L (list N) := (upd st i x, [Wr i]).
(** [if b] / [assert!(b)]. *)
Definition branch (b : bool) : L bool := (b, [Br b]).
(** [for _ in 0..n] *)
Fixpoint l_for {A} (n : nat) (body : A -> L A) (x : A) : L A :=
  match n with
  | O => _ <~ emit [Br false];; ret x
  | S n' => _ <~ emit [Br true];; y <~ body x;; l_for n' body y
  end.

(** ** ChaCha *)
(** [chacha20/src/lib.rs:321-343]; for [x op= y] the operand is read first. *)
Definition l_quarter_round (a b c d : nat) (st : list N) : L (list N) :=
  xa <~ rd st a;; xb <~ rd st b;; st <~ wr st a (add32 xa xb);;
  xa <~ rd st a;; xd <~ rd st d;; st <~ wr st d (xor32 xd xa);;
  xd <~ rd st d;; st <~ wr st d (rotl32 xd 16);;
  xc <~ rd st c;; xd <~ rd st d;; st <~ wr st c (add32 xc xd);;
  xc <~ rd st c;; xb <~ rd st b;; st <~ wr st b (xor32 xb xc);;
  xb <~ rd st b;; st <~ wr st b (rotl32 xb 12);;
  xa <~ rd st a;; xb <~ rd st b;; st <~ wr st a (add32 xa xb);;
  xa <~ rd st a;; xd <~ rd st d;; st <~ wr st d (xor32 xd xa);;
  xd <~ rd st d;; st <~ wr st d (rotl32 xd 8);;
  xc <~ rd st c;; xd <~ rd st d;; st <~ wr st c (add32 xc xd);;
  xc <~ rd st c;; xb <~ rd st b;; st <~ wr st b (xor32 xb xc);;
  xb <~ rd st b;; st <~ wr st b (rotl32 xb 7);;
  ret st.
(** Loop body of [backends/soft.rs:69-81] and [xchacha.rs:128-140]. *)
Definition l_double_round (st : list N) : L (list N) :=
  st <~ l_quarter_round 0 4 8 12 st;;
  st <~ l_quarter_round 1 5 9 13 st;;
  st <~ l_quarter_round 2 6 10 14 st;;
  st <~ l_quarter_round 3 7 11 15 st;;
  st <~ l_quarter_round 0 5 10 15 st;;
  st <~ l_quarter_round 1 6 11 12 st;;
  st <~ l_quarter_round 2 7 8 13 st;;
  l_quarter_round 3 4 9 14 st.
(** [for (s1, s0) in res.iter_mut().zip(state.iter())] [soft.rs:83-85];
    [salsa20/src/backends/soft.rs:66-68]. *)
Fixpoint l_zip_add (i : nat) (res state : list N) : L (list N) :=
  match res, state with
  | s1 :: res', s0 :: state' =>
      _ <~ emit [Br true; Rd i; Rd i; Wr i];; r <~ l_zip_add (S i) res' state';; ret (add32 s1 s0 :: r)
  | _, _ => _ <~ emit [Br false];; ret res
  end.
(** [soft.rs:66-87] *)
Definition l_run_rounds (n : nat) (state : list N) : L (list N) :=
  res <~ l_for n l_double_round state;; l_zip_add 0 res state.
(** [for (chunk, val) in block.chunks_exact_mut(4).zip(res.iter())]: the chunk written and
    the word read have the same index. *)
Fixpoint l_output (i : nat) (res : list N) : L (list N) :=
  match res with
  | [] => _ <~ emit [Br false];; ret []
  | x :: res' => _ <~ emit [Br true; Rd i; Wr i];; o <~ l_output (S i) res';; ret (to_le 4 x ++ o)
  end.
(** [soft.rs:33-45]; the condition at [:38] is known at compile time. *)
Definition l_soft_gen_ks_block (v : variant) (n : nat) (st : list N) : L (list N * list N) :=
  res <~ l_run_rounds n st;;
  x13 <~ rd st 13;; x12 <~ rd st 12;;
  let ctr := add64 (N.lor (N.shiftl x13 32) x12) 1 in
  st <~ wr st 12 (as_u32 ctr);;
  b <~ branch (counter_size v =? 8)%nat;;
  st <~ (if b then wr st 13 (as_u32 (N.shiftr ctr 32)) else ret st);;
  o <~ l_output 0 res;;
  ret (o, st).
(** [soft.rs:51-62]: the RNG refill. *)
Definition l_soft_rng_step (n : nat) (st : list N) : L (list N * list N) :=
  res <~ l_run_rounds n st;;
  x13 <~ rd st 13;; x12 <~ rd st 12;;
  let ctr := add64 (N.lor (N.shiftl x13 32) x12) 1 in
  st <~ wr st 12 (as_u32 ctr);; st <~ wr st 13 (as_u32 (N.shiftr ctr 32));;
  ret (res, st).
Fixpoint l_rng_blocks (n k block : nat) (st : list N) : L (list N * list N) :=
  match k with
  | O => _ <~ emit [Br false];; ret ([], st)
  | S k' => _ <~ emit [Br true];; r <~ l_soft_rng_step n st;;
            _ <~ emit [Wr (block * 16)];;
            r' <~ l_rng_blocks n k' (S block) (snd r);; ret (fst r ++ fst r', snd r')
  end.
Definition l_soft_gen_ks_blocks (n : nat) (st : list N) : L (list N * list N) := l_rng_blocks n 4 0 st.
(** [for (src, dst) in key.chunks_exact(4).zip(key_dst)] *)
Fixpoint l_zip_assign (i : nat) (dst src : list N) : L (list N) :=
  match dst, src with
  | _ :: dst', s :: src' => _ <~ emit [Br true; Rd i; Wr i];; r <~ l_zip_assign (S i) dst' src';; ret (s :: r)
  | _, _ => _ <~ emit [Br false];; ret dst
  end.
(** [lib.rs:139-190]; [None] when an [assert!] fails. *)
Definition l_new_internal (v : variant) (key iv : list N) : L (Res (list N)) :=
  b <~ branch (Nat.eqb (length iv) 4 || Nat.eqb (length iv) 8 || Nat.eqb (length iv) 12);;
  if b then
    let state := repeat 0 16 in
    let ctr_size := (counter_size v / 4)%nat in
    let state_rem := skipn 4 state in
    let key_dst := firstn 8 state_rem in let state_rem := skipn 8 state_rem in
    let ctr_dst := firstn ctr_size state_rem in
    let iv_dst := skipn ctr_size state_rem in
    key_dst <~ l_zip_assign 0 key_dst (words_of_bytes key);;
    b <~ branch (4 * length iv_dst =? length iv)%nat;;
    if b then iv_dst <~ l_zip_assign 0 iv_dst (words_of_bytes iv);;
              ret (Ok (CONSTANTS ++ key_dst ++ ctr_dst ++ iv_dst))
    else ret Panic
  else ret Panic.
(** [variants.rs:40,45,69,74] *)
Definition l_get_block_pos (v : variant) (st : list N) : L N :=
  match v with
  | Ietf => rd st 12
  | Legacy => h <~ rd st 13;; l <~ rd st 12;; ret (N.lor (N.shiftl h 32) l)
  end.
Definition l_set_block_pos (v : variant) (st : list N) (pos : N) : L (list N) :=
  match v with
  | Ietf => wr st 12 pos
  | Legacy => st <~ wr st 12 (as_u32 (N.land pos 0xFFFFFFFF));; wr st 13 (as_u32 (N.shiftr pos 32))
  end.
(** [xchacha.rs:112-155] and [:58-66]. *)
Definition l_hchacha (n : nat) (key input : list N) : L (list N) :=
  k <~ l_zip_assign 0 (repeat 0 8) (words_of_bytes key);;
  i <~ l_zip_assign 0 (repeat 0 4) (words_of_bytes input);;
  st <~ l_for n l_double_round (CONSTANTS ++ k ++ i);;
  a <~ l_output 0 (firstn 4 st);;
  b <~ l_output 0 (skipn 12 st);;
  ret (a ++ b).
Definition l_xchacha_new (n : nat) (key iv : list N) : L (Res (list N)) :=
  subkey <~ l_hchacha n key (firstn 16 iv);;
  l_new_internal Ietf subkey (repeat 0 4 ++ skipn 16 iv).

(** ** Salsa *)
(** [salsa20/src/backends/soft.rs:35-46] *)
Definition l_s_quarter_round (a b c d : nat) (st : list N) : L (list N) :=
  x <~ rd st a;; y <~ rd st d;; z <~ rd st b;; st <~ wr st b (xor32 z (rotl32 (add32 x y) 7));;
  x <~ rd st b;; y <~ rd st a;; z <~ rd st c;; st <~ wr st c (xor32 z (rotl32 (add32 x y) 9));;
  x <~ rd st c;; y <~ rd st b;; z <~ rd st d;; st <~ wr st d (xor32 z (rotl32 (add32 x y) 13));;
  x <~ rd st d;; y <~ rd st c;; z <~ rd st a;; wr st a (xor32 z (rotl32 (add32 x y) 18)).
Definition l_s_double_round (st : list N) : L (list N) :=
  st <~ l_s_quarter_round 0 4 8 12 st;;
  st <~ l_s_quarter_round 5 9 13 1 st;;
  st <~ l_s_quarter_round 10 14 2 6 st;;
  st <~ l_s_quarter_round 15 3 7 11 st;;
  st <~ l_s_quarter_round 0 1 2 3 st;;
  st <~ l_s_quarter_round 5 6 7 4 st;;
  st <~ l_s_quarter_round 10 11 8 9 st;;
  l_s_quarter_round 15 12 13 14 st.
Definition l_s_run_rounds (n : nat) (state : list N) : L (list N) :=
  res <~ l_for n l_s_double_round state;; l_zip_add 0 res state.
Definition l_salsa_get_pos (st : list N) : L N :=
  l <~ rd st 8;; h <~ rd st 9;; ret (l + N.shiftl h 32).
Definition l_salsa_set_pos (st : list N) (pos : N) : L (list N) :=
  st <~ wr st 8 (as_u32 (N.land pos 0xffffffff));; wr st 9 (as_u32 (N.land (N.shiftr pos 32) 0xffffffff)).
(** [soft.rs:22-30].  With overflow checks ([ck]) the [+ 1] contains a branch. *)
Definition l_add_ck (ck : bool) (m a b : N) : L (Res N) :=
  if ck then o <~ branch (m <=? a + b);; (if o then ret Panic else ret (Ok (a + b)))
  else ret (Ok ((a + b) mod m)).
Definition l_salsa_gen_ks_block (ck : bool) (n : nat) (st : list N) : L (Res (list N * list N)) :=
  res <~ l_s_run_rounds n st;;
  pos <~ l_salsa_get_pos st;;
  p <~ l_add_ck ck M64 pos 1;;
  match p with
  | Panic => ret Panic
  | Ok p => st <~ l_salsa_set_pos st p;; o <~ l_output 0 res;; ret (Ok (o, st))
  end.
(** [for (i, chunk) in key[..16].chunks(4).enumerate()] *)
Fixpoint l_set_words (st : list N) (i at_ : nat) (ws : list N) : L (list N) :=
  match ws with
  | [] => _ <~ emit [Br false];; ret st
  | w :: t => _ <~ emit [Br true; Rd i];; st <~ wr st at_ w;; l_set_words st (S i) (S at_) t
  end.
(** [salsa20/src/lib.rs:89-117] *)
Definition l_salsa_new (key iv : list N) : L (list N) :=
  st <~ wr (repeat 0 16) 0 (get S_CONSTANTS 0);;
  st <~ l_set_words st 0 1 (words_of_bytes (firstn 16 key));;
  st <~ wr st 5 (get S_CONSTANTS 1);;
  st <~ l_set_words st 0 6 (words_of_bytes iv);;
  st <~ wr st 8 0;; st <~ wr st 9 0;; st <~ wr st 10 (get S_CONSTANTS 2);;
  st <~ l_set_words st 0 11 (words_of_bytes (skipn 16 key));;
  wr st 15 (get S_CONSTANTS 3).
(** [xsalsa.rs:92-139] and [:44-49]; [key_idx] is read, then [state]. *)
Fixpoint l_pick (i : nat) (idx : list nat) (st : list N) : L (list N) :=
  match idx with
  | [] => _ <~ emit [Br false];; ret []
  | k :: idx' => _ <~ emit [Br true; Rd i];; x <~ rd st k;; _ <~ emit [Wr i];; o <~ l_pick (S i) idx' st;; ret (to_le 4 x ++ o)
  end.
Definition l_hsalsa (n : nat) (key input : list N) : L (list N) :=
  st <~ wr (repeat 0 16) 0 (get S_CONSTANTS 0);;
  st <~ l_set_words st 0 1 (words_of_bytes (slice key 0 16));;
  st <~ wr st 5 (get S_CONSTANTS 1);;
  st <~ l_set_words st 0 6 (words_of_bytes input);;
  st <~ wr st 10 (get S_CONSTANTS 2);;
  st <~ l_set_words st 0 11 (words_of_bytes (skipn 16 key));;
  st <~ wr st 15 (get S_CONSTANTS 3);;
  st <~ l_for n l_s_double_round st;;
  l_pick 0 [0; 5; 10; 15; 6; 7; 8; 9]%nat st.
Definition l_xsalsa_new (n : nat) (key iv : list N) : L (list N) :=
  subkey <~ l_hsalsa n key (firstn 16 iv);; l_salsa_new subkey (skipn 16 iv).

(** ** For comparison: RC4 *)
(** [rc4/src/lib.rs:35-44] in the same instrumentation. *)
Definition l_prga (s : rc4) : L (N * rc4) :=
  let i := add8 (k_i s) 1 in
  si <~ rd (k_state s) (N.to_nat i);;
  let j := add8 (k_j s) si in
  xi <~ rd (k_state s) (N.to_nat i);; xj <~ rd (k_state s) (N.to_nat j);;
  st <~ wr (k_state s) (N.to_nat i) xj;; st <~ wr st (N.to_nat j) xi;;
  a <~ rd st (N.to_nat i);; b <~ rd st (N.to_nat j);;
  o <~ rd st (N.to_nat (add8 a b));;
  ret (o, {| k_state := st; k_i := i; k_j := j |}).
