(** Specification of Salsa20, HSalsa20 and XSalsa20, from D. J. Bernstein, "Salsa20
    specification" (sections 2-10) and "Extending the Salsa20 nonce" (section 2).
    Nothing here refers to the Rust code or to the model. *)
From Coq Require Import NArith List String Ascii.
Import ListNotations.
Open Scope N_scope.
Local Open Scope string_scope.
Local Open Scope N_scope.
Local Open Scope list_scope.

(** §2: sum modulo 2^32, left rotation of a word (multiplication by 2^c modulo 2^32-1,
    written with quotient and remainder). *)
Definition ss_plus (u v : N) : N := (u + v) mod 2 ^ 32.
Definition ss_rot (u c : N) : N := (u * 2 ^ c) mod 2 ^ 32 + u / 2 ^ (32 - c).

(** §3: quarterround. *)
Definition ss_quarterround (y0 y1 y2 y3 : N) : N * N * N * N :=
  let z1 := N.lxor y1 (ss_rot (ss_plus y0 y3) 7) in
  let z2 := N.lxor y2 (ss_rot (ss_plus z1 y0) 9) in
  let z3 := N.lxor y3 (ss_rot (ss_plus z2 z1) 13) in
  let z0 := N.lxor y0 (ss_rot (ss_plus z3 z2) 18) in
  (z0, z1, z2, z3).

(** §4: rowround. *)
Definition ss_rowround (y : list N) : list N :=
  match y with
  | [y0; y1; y2; y3; y4; y5; y6; y7; y8; y9; y10; y11; y12; y13; y14; y15] =>
      let '(z0, z1, z2, z3) := ss_quarterround y0 y1 y2 y3 in
      let '(z5, z6, z7, z4) := ss_quarterround y5 y6 y7 y4 in
      let '(z10, z11, z8, z9) := ss_quarterround y10 y11 y8 y9 in
      let '(z15, z12, z13, z14) := ss_quarterround y15 y12 y13 y14 in
      [z0; z1; z2; z3; z4; z5; z6; z7; z8; z9; z10; z11; z12; z13; z14; z15]
  | _ => []
  end.
(** §5: columnround. *)
Definition ss_columnround (x : list N) : list N :=
  match x with
  | [x0; x1; x2; x3; x4; x5; x6; x7; x8; x9; x10; x11; x12; x13; x14; x15] =>
      let '(y0, y4, y8, y12) := ss_quarterround x0 x4 x8 x12 in
      let '(y5, y9, y13, y1) := ss_quarterround x5 x9 x13 x1 in
      let '(y10, y14, y2, y6) := ss_quarterround x10 x14 x2 x6 in
      let '(y15, y3, y7, y11) := ss_quarterround x15 x3 x7 x11 in
      [y0; y1; y2; y3; y4; y5; y6; y7; y8; y9; y10; y11; y12; y13; y14; y15]
  | _ => []
  end.
(** §6: doubleround. *)
Definition ss_doubleround (x : list N) : list N := ss_rowround (ss_columnround x).
Definition ss_rounds (dr : nat) (x : list N) : list N := Nat.iter dr ss_doubleround x.

(** §7: littleendian and its inverse. *)
Definition ss_littleendian (b : list N) (i : nat) : N :=
  nth (4 * i) b 0 + 2 ^ 8 * nth (4 * i + 1) b 0 + 2 ^ 16 * nth (4 * i + 2) b 0 + 2 ^ 24 * nth (4 * i + 3) b 0.
Definition ss_words (n : nat) (b : list N) : list N := map (ss_littleendian b) (seq 0 n).
Definition ss_bytes (w : list N) : list N :=
  flat_map (fun x => [x mod 2 ^ 8; x / 2 ^ 8 mod 2 ^ 8; x / 2 ^ 16 mod 2 ^ 8; x / 2 ^ 24 mod 2 ^ 8]) w.

(** §8: the Salsa20 hash function on words, then on 64 bytes. *)
Definition ss_core (dr : nat) (x : list N) : list N :=
  map (fun p => ss_plus (fst p) (snd p)) (combine x (ss_rounds dr x)).
Definition ss_hash (dr : nat) (b : list N) : list N := ss_bytes (ss_core dr (ss_words 16 b)).

(** §9: expansion of a 32-byte key and 16-byte [n]. *)
Definition ss_sigma : list N := map N_of_ascii (list_ascii_of_string "expand 32-byte k").
Definition ss_expand_input (k n : list N) : list N :=
  firstn 4 ss_sigma ++ firstn 16 k ++ firstn 4 (skipn 4 ss_sigma) ++ n
  ++ firstn 4 (skipn 8 ss_sigma) ++ skipn 16 k ++ skipn 12 ss_sigma.
(** §10: block [i] of the keystream for an 8-byte nonce; [i] as 8 little-endian bytes. *)
Definition ss_counter (i : N) : list N := map (fun j => i / 2 ^ (8 * j) mod 2 ^ 8) [0; 1; 2; 3; 4; 5; 6; 7].
Definition ss_block (dr : nat) (k nonce : list N) (i : N) : list N :=
  ss_hash dr (ss_expand_input k (nonce ++ ss_counter i)).

(** "Extending the Salsa20 nonce" §2: HSalsa20 is words 0,5,10,15,6,7,8,9 after the
    rounds, without feed-forward; XSalsa20. *)
Definition ss_hsalsa (dr : nat) (k n : list N) : list N :=
  let z := ss_rounds dr (ss_words 16 (ss_expand_input k n)) in
  ss_bytes (map (fun i => nth i z 0) [0; 5; 10; 15; 6; 7; 8; 9]%nat).
Definition ss_xblock (dr : nat) (k nonce : list N) (i : N) : list N :=
  ss_block dr (ss_hsalsa dr k (firstn 16 nonce)) (skipn 16 nonce) i.
