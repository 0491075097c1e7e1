(** Model of [rabbit/src/lib.rs].  [ck] is the build profile's [overflow-checks]: it
    governs the plain [+] and [*] on [u64]. *)
From Verif Require Export Word Res.

(** [rabbit/src/lib.rs:29], [:32-34] *)
Definition WORDSIZE : N := N.shiftl 1 32.
Definition R_A : list N :=
  [0x4D34D34D; 0xD34D34D3; 0x34D34D34; 0x4D34D34D; 0xD34D34D3; 0x34D34D34; 0x4D34D34D; 0xD34D34D3].

(** [rabbit/src/lib.rs:50-56] *)
Record rstate := { r_x : list N; r_c : list N; r_carry : N }.

(** [x as u16] *)
Definition as_u16 (x : N) : N := x mod 65536.
(** [a << n] on [u16] / [u32]: bits shifted out are lost. *)
Definition shl16 (a n : N) : N := as_u16 (N.shiftl a n).
Definition shl32 (a n : N) : N := as_u32 (N.shiftl a n).

(** Body of the loop at [:126-130]. *)
Definition counter_step (ck : bool) (j : nat) (s : list N * N) : Res (list N * N) :=
  let (c, carry_bit) := s in
  do t0 <- add_ck ck M64 (get c j) (get R_A j);                     (* :127 *)
  do t <- add_ck ck M64 t0 carry_bit;                               (* :127 *)
  let carry_bit := N.land (as_u8 (t / WORDSIZE)) 1 in               (* :128 *)
  Ok (upd c j (as_u32 (t mod WORDSIZE)), carry_bit).                (* :129 *)
(** [rabbit/src/lib.rs:124-131] *)
Definition counter_update (ck : bool) (s : rstate) : Res rstate :=
  do (c, b) <- for_ (seq 0 8) (counter_step ck) (r_c s, r_carry s);
  Ok {| r_x := r_x s; r_c := c; r_carry := b |}.

(** Body of the loop at [:140-144]. *)
Definition g_step (ck : bool) (s : rstate) (j : nat) (g : list N) : Res (list N) :=
  do u_plus_v <- add_ck ck M64 (get (r_x s) j) (get (r_c s) j);              (* :141 *)
  do square_uv <- mul_ck ck M64 (u_plus_v mod WORDSIZE) (u_plus_v mod WORDSIZE); (* :142 *)
  Ok (upd g j (as_u32 (N.lxor square_uv (N.shiftr square_uv 32)))).         (* :143 *)
(** [rabbit/src/lib.rs:134-162] *)
Definition next_state (ck : bool) (s : rstate) : Res rstate :=
  let g := repeat 0 8 in                                            (* :135 *)
  do s <- counter_update ck s;                                      (* :137 *)
  do g <- for_ (seq 0 8) (g_step ck s) g;                           (* :140-144 *)
  let x := r_x s in
  let x := upd x 0 (add32 (add32 (get g 0) (rotl32 (get g 7) 16)) (rotl32 (get g 6) 16)) in (* :146-148 *)
  let x := upd x 1 (add32 (add32 (get g 1) (rotl32 (get g 0) 8)) (get g 7)) in              (* :149 *)
  let x := upd x 2 (add32 (add32 (get g 2) (rotl32 (get g 1) 16)) (rotl32 (get g 0) 16)) in (* :150-152 *)
  let x := upd x 3 (add32 (add32 (get g 3) (rotl32 (get g 2) 8)) (get g 1)) in              (* :153 *)
  let x := upd x 4 (add32 (add32 (get g 4) (rotl32 (get g 3) 16)) (rotl32 (get g 2) 16)) in (* :154-156 *)
  let x := upd x 5 (add32 (add32 (get g 5) (rotl32 (get g 4) 8)) (get g 3)) in              (* :157 *)
  let x := upd x 6 (add32 (add32 (get g 6) (rotl32 (get g 5) 16)) (rotl32 (get g 4) 16)) in (* :158-160 *)
  let x := upd x 7 (add32 (add32 (get g 7) (rotl32 (get g 6) 8)) (get g 5)) in              (* :161 *)
  Ok {| r_x := x; r_c := r_c s; r_carry := r_carry s |}.

(** [for _ in 0..4 { self.next_state() }] *)
Definition next_state4 (ck : bool) (s : rstate) : Res rstate :=
  for_ (seq 0 4) (fun _ => next_state ck) s.

(** One subkey of [:63-70]: [(key[2i] as u16) | ((key[2i+1] as u16) << 8)]. *)
Definition subkey (key : list N) (i : nat) : N := N.lor (get key (2 * i)) (shl16 (get key (2 * i + 1)) 8).
(** [((a as u32) << 16) | (b as u32)] of [:76-80]. *)
Definition join16 (a b : N) : N := N.lor (shl32 a 16) b.
(** Body of the loop at [:74-82]. *)
Definition setup_step (k : list N) (j : nat) (s : list N * list N) : list N * list N :=
  let (x, c) := s in
  if (j mod 2 =? 0)%nat
  then (upd x j (join16 (get k ((j + 1) mod 8)%nat) (get k j)),                       (* :76 *)
        upd c j (join16 (get k ((j + 4) mod 8)%nat) (get k ((j + 5) mod 8)%nat)))     (* :77 *)
  else (upd x j (join16 (get k ((j + 5) mod 8)%nat) (get k ((j + 4) mod 8)%nat)),     (* :79 *)
        upd c j (join16 (get k j) (get k ((j + 1) mod 8)%nat))).                      (* :80 *)
(** [rabbit/src/lib.rs:60-96] *)
Definition setup_key (ck : bool) (key : list N) : Res rstate :=
  let k := map (subkey key) (seq 0 8) in                            (* :61-70 *)
  let (x, c) := fold_left (fun s j => setup_step k j s) (seq 0 8) (repeat 0 8, repeat 0 8) in (* :72-82 *)
  do s <- next_state4 ck {| r_x := x; r_c := c; r_carry := 0 |};    (* :84-89 *)
  Ok {| r_x := r_x s;
        r_c := fold_left (fun c j => upd c j (xor32 (get c j) (get (r_x s) ((j + 4) mod 8)%nat))) (seq 0 8) (r_c s); (* :91-93 *)
        r_carry := r_carry s |}.

(** [a as u32 | (b as u32) << 8 | ...] of [:102-105]. *)
Definition iv_le (iv : list N) (o : nat) : N :=
  N.lor (N.lor (N.lor (get iv o) (shl32 (get iv (o + 1)) 8)) (shl32 (get iv (o + 2)) 16)) (shl32 (get iv (o + 3)) 24).
(** [rabbit/src/lib.rs:99-121] *)
Definition setup_iv (ck : bool) (iv : list N) (s : rstate) : Res rstate :=
  let i0 := iv_le iv 0 in                                           (* :102-103 *)
  let i2 := iv_le iv 4 in                                           (* :104-105 *)
  let i1 := N.lor (N.shiftr i0 16) (N.land i2 0xFFFF0000) in        (* :106 *)
  let i3 := N.lor (shl32 i2 16) (N.land i0 0x0000FFFF) in           (* :107 *)
  let c := r_c s in
  let c := upd c 0 (xor32 (get c 0) i0) in                          (* :109 *)
  let c := upd c 1 (xor32 (get c 1) i1) in
  let c := upd c 2 (xor32 (get c 2) i2) in
  let c := upd c 3 (xor32 (get c 3) i3) in
  let c := upd c 4 (xor32 (get c 4) i0) in
  let c := upd c 5 (xor32 (get c 5) i1) in
  let c := upd c 6 (xor32 (get c 6) i2) in
  let c := upd c 7 (xor32 (get c 7) i3) in                          (* :116 *)
  next_state4 ck {| r_x := r_x s; r_c := c; r_carry := r_carry s |}. (* :118-120 *)

(** [rabbit/src/lib.rs:165-197] *)
Definition extract (s : rstate) : list N :=
  let x := r_x s in
  let hi i := N.shiftr (get x i) 16 in
  let tmp := [as_u16 (N.lxor (get x 0) (hi 5%nat));                 (* :170 *)
              as_u16 (N.lxor (hi 0%nat) (get x 3));
              as_u16 (N.lxor (get x 2) (hi 7%nat));
              as_u16 (N.lxor (hi 2%nat) (get x 5));
              as_u16 (N.lxor (get x 4) (hi 1%nat));
              as_u16 (N.lxor (hi 4%nat) (get x 7));
              as_u16 (N.lxor (get x 6) (hi 3%nat));
              as_u16 (N.lxor (hi 6%nat) (get x 1))] in              (* :177 *)
  flat_map (fun t => [as_u8 t; as_u8 (N.shiftr t 8)]) tmp.          (* :179-194 *)

(** [rabbit/src/lib.rs:199-202] *)
Definition next_block (ck : bool) (s : rstate) : Res (list N * rstate) :=
  do s <- next_state ck s; Ok (extract s, s).

(** [rabbit/src/lib.rs:224-228] *)
Definition rabbit_key_only (ck : bool) (key : list N) : Res rstate := setup_key ck key.
(** [rabbit/src/lib.rs:266-270], with [KeyIvInit::new] = [inner_iv_init(KeyInit::new(key), iv)]. *)
Definition rabbit_new (ck : bool) (key iv : list N) : Res rstate :=
  do s <- rabbit_key_only ck key; setup_iv ck iv s.
(** [rabbit/src/lib.rs:238-241], [:280-283] *)
Definition rabbit_remaining (s : rstate) : option N := None.
(** [rabbit/src/lib.rs:244-246], [:286-288], [:303-305]: [k] blocks, one by one
    ([ParBlocksSize = U1]). *)
Fixpoint rabbit_write (ck : bool) (k : nat) (s : rstate) : Res (list N * rstate) :=
  match k with
  | O => Ok ([], s)
  | S k' => do (o, s1) <- next_block ck s;
            do (o', s2) <- rabbit_write ck k' s1; Ok (o ++ o', s2)
  end.
