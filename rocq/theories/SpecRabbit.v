(** Specification of Rabbit, from RFC 4503 section 2.  Key, IV and keystream blocks are
    integers of 128, 64 and 128 bits.  Nothing here refers to the Rust code or the model. *)
From Coq Require Import Arith NArith List.
Import ListNotations.
Open Scope N_scope.

(** §2.1 notation: bits [h..l] of [A], concatenation of two 16-bit values, rotation,
    addition modulo 2^32, WORDSIZE. *)
Definition rb_bits (A h l : N) : N := A / 2 ^ l mod 2 ^ (h + 1 - l).
Definition rb_cat (hi lo : N) : N := hi * 2 ^ 16 + lo.
Definition rb_rot (x r : N) : N := x * 2 ^ r mod 2 ^ 32 + x / 2 ^ (32 - r).
Definition WORD_SIZE : N := 2 ^ 32.

(** §2.2 inner state: eight state variables, eight counters, one carry bit. *)
Record rb_state := { rb_x : list N; rb_c : list N; rb_b : N }.
Definition rb_nth (l : list N) (j : nat) : N := nth (j mod 8)%nat l 0.
Definition rb_tab (f : nat -> N) : list N := map f (seq 0 8).

(** §2.5 the constants and the counter system: [rb_carry c b j] is the carry into
    position [j]. *)
Definition rb_A : list N :=
  [0x4D34D34D; 0xD34D34D3; 0x34D34D34; 0x4D34D34D; 0xD34D34D3; 0x34D34D34; 0x4D34D34D; 0xD34D34D3].
Fixpoint rb_carry (c : list N) (b : N) (j : nat) : N :=
  match j with
  | O => b
  | S i => (rb_nth c i + rb_nth rb_A i + rb_carry c b i) / WORD_SIZE
  end.
Definition rb_counter (c : list N) (b : N) (j : nat) : N :=
  (rb_nth c j + rb_nth rb_A j + rb_carry c b j) mod WORD_SIZE.

(** §2.6 next-state function; indices are modulo 8. *)
Definition rb_g (u v : N) : N :=
  let sq := ((u + v) mod WORD_SIZE) * ((u + v) mod WORD_SIZE) in
  N.lxor (sq mod WORD_SIZE) (sq / WORD_SIZE).
Definition rb_next_x (G : list N) (j : nat) : N :=
  let back (d : nat) := rb_nth G (j + 8 - d)%nat in
  if Nat.even j
  then (rb_nth G j + rb_rot (back 1%nat) 16 + rb_rot (back 2%nat) 16) mod WORD_SIZE
  else (rb_nth G j + rb_rot (back 1%nat) 8 + back 2%nat) mod WORD_SIZE.
Definition rb_next (s : rb_state) : rb_state :=
  let c := rb_tab (rb_counter (rb_c s) (rb_b s)) in
  let G := rb_tab (fun j => rb_g (rb_nth (rb_x s) j) (rb_nth c j)) in
  {| rb_x := rb_tab (rb_next_x G); rb_c := c; rb_b := rb_carry (rb_c s) (rb_b s) 8 |}.

(** §2.3 key setup. *)
Definition rb_key_setup (K : N) : rb_state :=
  let k i := rb_bits K (16 * N.of_nat (i mod 8)%nat + 15) (16 * N.of_nat (i mod 8)%nat) in
  let s := {| rb_x := rb_tab (fun j => if Nat.even j then rb_cat (k (j + 1)%nat) (k j) else rb_cat (k (j + 5)%nat) (k (j + 4)%nat));
              rb_c := rb_tab (fun j => if Nat.even j then rb_cat (k (j + 4)%nat) (k (j + 5)%nat) else rb_cat (k j) (k (j + 1)%nat));
              rb_b := 0 |} in
  let s := Nat.iter 4 rb_next s in
  {| rb_x := rb_x s; rb_c := rb_tab (fun j => N.lxor (rb_nth (rb_c s) j) (rb_nth (rb_x s) (j + 4)%nat)); rb_b := rb_b s |}.

(** §2.4 IV setup. *)
Definition rb_iv_word (IV : N) (j : nat) : N :=
  match (j mod 4)%nat with
  | 0%nat => rb_bits IV 31 0
  | 1%nat => rb_cat (rb_bits IV 63 48) (rb_bits IV 31 16)
  | 2%nat => rb_bits IV 63 32
  | _ => rb_cat (rb_bits IV 47 32) (rb_bits IV 15 0)
  end.
Definition rb_iv_setup (IV : N) (s : rb_state) : rb_state :=
  Nat.iter 4 rb_next
    {| rb_x := rb_x s; rb_c := rb_tab (fun j => N.lxor (rb_nth (rb_c s) j) (rb_iv_word IV j)); rb_b := rb_b s |}.

(** §2.7 extraction: a 128-bit integer, given by its eight 16-bit parts. *)
Definition rb_extract (s : rb_state) : N :=
  let lo j := rb_bits (rb_nth (rb_x s) j) 15 0 in
  let hi j := rb_bits (rb_nth (rb_x s) j) 31 16 in
  N.lxor (lo 0%nat) (hi 5%nat) + 2 ^ 16 * N.lxor (hi 0%nat) (lo 3%nat)
  + 2 ^ 32 * N.lxor (lo 2%nat) (hi 7%nat) + 2 ^ 48 * N.lxor (hi 2%nat) (lo 5%nat)
  + 2 ^ 64 * N.lxor (lo 4%nat) (hi 1%nat) + 2 ^ 80 * N.lxor (hi 4%nat) (lo 7%nat)
  + 2 ^ 96 * N.lxor (lo 6%nat) (hi 3%nat) + 2 ^ 112 * N.lxor (hi 6%nat) (lo 1%nat).

(** Keystream block [i] from a set-up state: iterate, then extract. *)
Definition rb_block (s : rb_state) (i : nat) : N := rb_extract (Nat.iter (S i) rb_next s).

(** Octet strings: least significant octet first. *)
Definition rb_int (l : list N) : N := fold_right (fun b acc => b + 2 ^ 8 * acc) 0 l.
Definition rb_octets (n : nat) (x : N) : list N := map (fun i => x / 2 ^ (8 * N.of_nat i) mod 2 ^ 8) (seq 0 n).
(** The keystream of a key, and of a key and IV, as octets of block [i]. *)
Definition rb_key_block (key : list N) (i : nat) : list N := rb_octets 16 (rb_block (rb_key_setup (rb_int key)) i).
Definition rb_key_iv_block (key iv : list N) (i : nat) : list N :=
  rb_octets 16 (rb_block (rb_iv_setup (rb_int iv) (rb_key_setup (rb_int key))) i).
