(** Leakage-instrumented versions of the code that can panic: Rabbit, RC4, HC-256
    ([Rabbit.v], [Rc4.v], [Hc256.v]) and the pointer code of the ChaCha SIMD backends
    ([Memory.v]).  Same leakage model as [Leakage.v]: every branch outcome (loops,
    [if], [assert!], overflow checks), every array index and every address of a vector load
    or store, in program order; registers, arithmetic and multiplication leak nothing, nor
    do division and remainder by a power of two known at compile time.

    The round functions of the SIMD backends work on registers only and loop a fixed number
    of times; they are the functions of the value-level models and emit nothing. *)
From Verif Require Export Word Res.
From Verif Require Import Leakage Rabbit Rc4 Hc256 Memory.

Definition LR (A : Type) : Type := Res A * list event.
Definition rret {A} (x : A) : LR A := (Ok x, []).
Definition rpanic {A} : LR A := (Panic, []).
Definition rbind {A B} (m : LR A) (f : A -> LR B) : LR B :=
  let (r, t) := m in
  match r with
  | Panic => (Panic, t)
  | Ok x => let (y, u) := f x in (y, t ++ u)
  end.
Notation "'dol' x <- m ; f" := (rbind m (fun x => f)) (at level 200, x pattern, m at level 100, f at level 200).
(** A computation that leaks the given events. *)
Definition leak {A} (t : list event) (m : Res A) : LR A := (m, t).
Definition pure {A} (m : Res A) : LR A := leak [] m.
(** [if b]: the outcome leaks. *)
Definition r_branch (b : bool) : LR bool := leak [Br b] (Ok b).
Definition r_assert (b : bool) : LR unit := leak [Br b] (assert_ b).
(** [for x in l] *)
Fixpoint r_for {A S} (l : list A) (body : A -> S -> LR S) (s : S) : LR S :=
  match l with
  | [] => leak [Br false] (Ok s)
  | x :: l' => dol _ <- leak [Br true] (Ok tt); dol s <- body x s; r_for l' body s
  end.
(** [a[i]], [a[i] = x]: constant indices, as in [get]/[upd]. *)
Definition r_get (l : list N) (i : nat) : LR N := leak [Rd i] (Ok (get l i)).
Definition r_upd (l : list N) (i : nat) (x : N) : LR (list N) := leak [Wr i] (Ok (upd l i x)).
(** Checked indices: the index leaks (and with it the outcome of the bounds check). *)
Definition r_idx (l : list N) (i : N) : LR N := leak [Rd (N.to_nat i)] (idx l i).
Definition r_set (l : list N) (i x : N) : LR (list N) := leak [Wr (N.to_nat i)] (set_idx l i x).
(** [+], [-], [*]: with overflow checks, a branch on the overflow. *)
Definition r_add (ck : bool) (m a b : N) : LR N := leak (if ck then [Br (m <=? a + b)] else []) (add_ck ck m a b).
Definition r_sub (ck : bool) (m a b : N) : LR N := leak (if ck then [Br (a <? b)] else []) (sub_ck ck m a b).
Definition r_mul (ck : bool) (m a b : N) : LR N := leak (if ck then [Br (m <=? a * b)] else []) (mul_ck ck m a b).

(** ** Rabbit *)
(** [rabbit/src/lib.rs:124-131] *)
Definition r_counter_step (ck : bool) (j : nat) (s : list N * N) : LR (list N * N) :=
  let (c, carry_bit) := s in
  dol cj <- r_get c j; dol aj <- r_get R_A j;
  dol t0 <- r_add ck M64 cj aj;
  dol t <- r_add ck M64 t0 carry_bit;
  let carry_bit := N.land (as_u8 (t / WORDSIZE)) 1 in
  dol c <- r_upd c j (as_u32 (t mod WORDSIZE));
  rret (c, carry_bit).
Definition r_counter_update (ck : bool) (s : rstate) : LR rstate :=
  dol (c, b) <- r_for (seq 0 8) (r_counter_step ck) (r_c s, r_carry s);
  rret {| r_x := r_x s; r_c := c; r_carry := b |}.
(** [rabbit/src/lib.rs:140-144] *)
Definition r_g_step (ck : bool) (s : rstate) (j : nat) (g : list N) : LR (list N) :=
  dol x <- r_get (r_x s) j; dol c <- r_get (r_c s) j;
  dol u_plus_v <- r_add ck M64 x c;
  dol square_uv <- r_mul ck M64 (u_plus_v mod WORDSIZE) (u_plus_v mod WORDSIZE);
  r_upd g j (as_u32 (N.lxor square_uv (N.shiftr square_uv 32))).
(** [x[a] = g[a] + rotl(g[b], r) + rotl(g[c], q)] ([q = 0]: no rotation), [:146-161]. *)
Definition r_mix (g : list N) (a b c : nat) (r q : N) (x : list N) : LR (list N) :=
  dol ga <- r_get g a; dol gb <- r_get g b; dol gc <- r_get g c;
  r_upd x a (add32 (add32 ga (rotl32 gb r)) (if q =? 0 then gc else rotl32 gc q)).
(** [rabbit/src/lib.rs:134-162] *)
Definition r_next_state (ck : bool) (s : rstate) : LR rstate :=
  dol s <- r_counter_update ck s;
  dol g <- r_for (seq 0 8) (r_g_step ck s) (repeat 0 8);
  dol x <- r_mix g 0 7 6 16 16 (r_x s);
  dol x <- r_mix g 1 0 7 8 0 x;
  dol x <- r_mix g 2 1 0 16 16 x;
  dol x <- r_mix g 3 2 1 8 0 x;
  dol x <- r_mix g 4 3 2 16 16 x;
  dol x <- r_mix g 5 4 3 8 0 x;
  dol x <- r_mix g 6 5 4 16 16 x;
  dol x <- r_mix g 7 6 5 8 0 x;
  rret {| r_x := x; r_c := r_c s; r_carry := r_carry s |}.
Definition r_next_state4 (ck : bool) (s : rstate) : LR rstate :=
  r_for (seq 0 4) (fun _ => r_next_state ck) s.
(** One statement of [rabbit/src/lib.rs:63-70]. *)
Definition r_subkey (key : list N) (i : nat) (k : list N) : LR (list N) :=
  dol a <- r_get key (2 * i); dol b <- r_get key (2 * i + 1);
  dol k <- r_upd k i (N.lor a (shl16 b 8)); rret k.
(** [:74-82]; the condition is on the loop counter. *)
Definition r_setup_step (k : list N) (j : nat) (s : list N * list N) : LR (list N * list N) :=
  let (x, c) := s in
  dol e <- r_branch (j mod 2 =? 0)%nat;
  if e then
    dol a <- r_get k ((j + 1) mod 8)%nat; dol b <- r_get k j; dol x <- r_upd x j (join16 a b);
    dol a <- r_get k ((j + 4) mod 8)%nat; dol b <- r_get k ((j + 5) mod 8)%nat; dol c <- r_upd c j (join16 a b);
    rret (x, c)
  else
    dol a <- r_get k ((j + 5) mod 8)%nat; dol b <- r_get k ((j + 4) mod 8)%nat; dol x <- r_upd x j (join16 a b);
    dol a <- r_get k j; dol b <- r_get k ((j + 1) mod 8)%nat; dol c <- r_upd c j (join16 a b);
    rret (x, c).
(** [rabbit/src/lib.rs:60-96] *)
Definition r_setup_key (ck : bool) (key : list N) : LR rstate :=
  dol k <- r_subkey key 0 (repeat 0 8); dol k <- r_subkey key 1 k; dol k <- r_subkey key 2 k; dol k <- r_subkey key 3 k;
  dol k <- r_subkey key 4 k; dol k <- r_subkey key 5 k; dol k <- r_subkey key 6 k; dol k <- r_subkey key 7 k;
  dol (x, c) <- r_for (seq 0 8) (r_setup_step k) (repeat 0 8, repeat 0 8);
  dol s <- r_next_state4 ck {| r_x := x; r_c := c; r_carry := 0 |};
  dol c <- r_for (seq 0 8) (fun j c => dol cj <- r_get c j; dol xj <- r_get (r_x s) ((j + 4) mod 8)%nat; r_upd c j (xor32 cj xj)) (r_c s);
  rret {| r_x := r_x s; r_c := c; r_carry := r_carry s |}.
(** [:102-105] *)
Definition r_iv_le (iv : list N) (o : nat) : LR N :=
  dol a <- r_get iv o; dol b <- r_get iv (o + 1); dol c <- r_get iv (o + 2); dol d <- r_get iv (o + 3);
  rret (N.lor (N.lor (N.lor a (shl32 b 8)) (shl32 c 16)) (shl32 d 24)).
Definition r_xor (c : list N) (j : nat) (i : list N) (k : nat) : LR (list N) :=
  dol ik <- r_get i k; dol cj <- r_get c j; r_upd c j (xor32 cj ik).
(** [rabbit/src/lib.rs:99-121] *)
Definition r_setup_iv (ck : bool) (iv : list N) (s : rstate) : LR rstate :=
  dol w <- r_iv_le iv 0; dol i <- r_upd (repeat 0 4) 0 w;
  dol w <- r_iv_le iv 4; dol i <- r_upd i 2 w;
  dol i0 <- r_get i 0; dol i2 <- r_get i 2; dol i <- r_upd i 1 (N.lor (N.shiftr i0 16) (N.land i2 0xFFFF0000));
  dol i2 <- r_get i 2; dol i0 <- r_get i 0; dol i <- r_upd i 3 (N.lor (shl32 i2 16) (N.land i0 0x0000FFFF));
  dol c <- r_xor (r_c s) 0 i 0; dol c <- r_xor c 1 i 1; dol c <- r_xor c 2 i 2; dol c <- r_xor c 3 i 3;
  dol c <- r_xor c 4 i 0; dol c <- r_xor c 5 i 1; dol c <- r_xor c 6 i 2; dol c <- r_xor c 7 i 3;
  r_next_state4 ck {| r_x := r_x s; r_c := c; r_carry := r_carry s |}.
(** [rabbit/src/lib.rs:165-197]: [tmp[k] = (x[a] (>> 16)) ^ (x[b] (>> 16))], then two bytes
    of each. *)
Definition r_tmp (x : list N) (k a b : nat) (ha hb : bool) (tmp : list N) : LR (list N) :=
  dol xa <- r_get x a; dol xb <- r_get x b;
  r_upd tmp k (as_u16 (N.lxor (if ha then N.shiftr xa 16 else xa) (if hb then N.shiftr xb 16 else xb))).
Fixpoint r_out (i : nat) (tmp : list N) : LR (list N) :=
  match tmp with
  | [] => rret []
  | t :: tmp' => dol _ <- leak [Rd i; Wr (2 * i); Rd i; Wr (2 * i + 1)] (Ok tt);
                 dol o <- r_out (S i) tmp'; rret (as_u8 t :: as_u8 (N.shiftr t 8) :: o)
  end.
Definition r_extract (s : rstate) : LR (list N) :=
  let x := r_x s in
  dol tmp <- r_tmp x 0 0 5 false true (repeat 0 8);
  dol tmp <- r_tmp x 1 0 3 true false tmp;
  dol tmp <- r_tmp x 2 2 7 false true tmp;
  dol tmp <- r_tmp x 3 2 5 true false tmp;
  dol tmp <- r_tmp x 4 4 1 false true tmp;
  dol tmp <- r_tmp x 5 4 7 true false tmp;
  dol tmp <- r_tmp x 6 6 3 false true tmp;
  dol tmp <- r_tmp x 7 6 1 true false tmp;
  r_out 0 tmp.
(** [rabbit/src/lib.rs:199-202], [:303-305] *)
Definition r_next_block (ck : bool) (s : rstate) : LR (list N * rstate) :=
  dol s <- r_next_state ck s; dol o <- r_extract s; rret (o, s).
Fixpoint r_rabbit_write (ck : bool) (k : nat) (s : rstate) : LR (list N * rstate) :=
  match k with
  | O => leak [Br false] (Ok ([], s))
  | S k' => dol _ <- leak [Br true] (Ok tt);
            dol (o, s1) <- r_next_block ck s;
            dol (o', s2) <- r_rabbit_write ck k' s1; rret (o ++ o', s2)
  end.
(** [rabbit/src/lib.rs:224-228], [:266-270] *)
Definition r_rabbit_key_only (ck : bool) (key : list N) : LR rstate := r_setup_key ck key.
Definition r_rabbit_new (ck : bool) (key iv : list N) : LR rstate :=
  dol s <- r_rabbit_key_only ck key; r_setup_iv ck iv s.

(** ** RC4 *)
(** [<[u8]>::swap] *)
Definition r_swap (l : list N) (a b : N) : LR (list N) :=
  dol x <- r_idx l a; dol y <- r_idx l b; dol l <- r_set l a y; r_set l b x.
(** [rc4/src/lib.rs:35-44] *)
Definition r_prga (s : rc4) : LR (N * rc4) :=
  let i := add8 (k_i s) 1 in
  dol si <- r_idx (k_state s) i;
  let j := add8 (k_j s) si in
  dol st <- r_swap (k_state s) i j;
  dol si <- r_idx st i; dol sj <- r_idx st j;
  dol o <- r_idx st (add8 si sj);
  rret (o, {| k_state := st; k_i := i; k_j := j |}).
Definition r_ksa_step (key : list N) (i : nat) (a : list N * N) : LR (list N * N) :=
  let (state, j) := a in
  dol si <- r_idx state (N.of_nat i);
  dol k <- r_idx key (N.of_nat (i mod length key)%nat);
  let j := add8 (add8 j si) k in
  dol state <- r_swap state (N.of_nat i) j;
  rret (state, j).
(** [rc4/src/lib.rs:58-76]; initialising [state] leaks nothing about the key and is left
    out. *)
Definition r_new_from_slice (key : list N) : LR (option rc4) :=
  dol bad <- r_branch ((length key <? 1) || (256 <? length key))%nat;
  if bad then rret None
  else
    dol (state, _) <- r_for (seq 0 256) (r_ksa_step key) (map N.of_nat (seq 0 256), 0);
    rret (Some {| k_state := state; k_i := 0; k_j := 0 |}).

(** ** HC-256 *)
(** [hc-256/src/lib.rs:136-161] *)
Definition r_g (tbl : list N) (x y : N) : LR N :=
  dol t <- r_idx tbl (N.land (N.lxor x y) TABLE_MASK);
  rret (add32 (N.lxor (rotr32 x 10) (rotr32 y 23)) t).
Definition r_h (ck : bool) (tbl : list N) (x : N) : LR N :=
  dol a <- r_idx tbl (N.land x 0xff);
  dol i1 <- r_add ck M32 256 (N.land (N.shiftr x 8) 0xff); dol b <- r_idx tbl i1;
  dol i2 <- r_add ck M32 512 (N.land (N.shiftr x 16) 0xff); dol c <- r_idx tbl i2;
  dol i3 <- r_add ck M32 768 (N.land (N.shiftr x 24) 0xff); dol d <- r_idx tbl i3;
  rret (add32 (add32 (add32 a b) c) d).
(** [hc-256/src/lib.rs:163-188] *)
Definition r_half (ck : bool) (usz j : N) (own other : list N) : LR (N * list N) :=
  let at_ d := N.land (wsub usz j d) TABLE_MASK in
  dol a <- r_idx own j; dol b <- r_idx own (at_ 10);
  dol x <- r_idx own (at_ 3); dol y <- r_idx own (at_ 1023);
  dol g <- r_g other x y;
  dol own <- r_set own j (add32 (add32 a b) g);
  dol x <- r_idx own (at_ 12); dol h <- r_h ck other x; dol b <- r_idx own j;
  rret (N.lxor h b, own).
Definition r_gen_word (ck : bool) (usz : N) (s : hc) : LR (N * hc) :=
  let j := N.land (h_idx s) TABLE_MASK in
  dol nx <- r_add ck M32 (h_idx s) 1;
  dol lo <- r_branch (h_idx s <? 1024);
  if lo then
    dol (w, p) <- r_half ck usz j (h_p s) (h_q s); rret (w, {| h_p := p; h_q := h_q s; h_idx := N.land nx (2048 - 1) |})
  else
    dol (w, q) <- r_half ck usz j (h_q s) (h_p s); rret (w, {| h_p := h_p s; h_q := q; h_idx := N.land nx (2048 - 1) |}).
(** [hc-256/src/lib.rs:215-217], [k] blocks; the four bytes of each go to a fixed place. *)
Fixpoint r_hc_write (ck : bool) (usz : N) (k : nat) (s : hc) : LR (list N * hc) :=
  match k with
  | O => leak [Br false] (Ok ([], s))
  | S k' => dol _ <- leak [Br true] (Ok tt);
            dol (w, s1) <- r_gen_word ck usz s;
            dol (o, s2) <- r_hc_write ck usz k' s1; rret (to_le 4 w ++ o, s2)
  end.
