(** Specification of ChaCha, HChaCha and XChaCha, written from RFC 8439 (sections
    2.1-2.4), D. J. Bernstein's "ChaCha, a variant of Salsa20" and
    draft-irtf-cfrg-xchacha-03, in plain arithmetic.  Nothing here refers to the
    Rust code or to the model. *)
From Coq Require Import NArith List String Ascii.
Import ListNotations.
Open Scope N_scope.
Local Open Scope string_scope.
Local Open Scope N_scope.
Local Open Scope list_scope.

(** RFC 8439 §2.1: addition modulo 2^32, XOR, [n]-bit left roll. *)
Definition sp_plus (x y : N) : N := (x + y) mod 2 ^ 32.
Definition sp_roll (x n : N) : N := (x * 2 ^ n) mod 2 ^ 32 + x / 2 ^ (32 - n).

(** RFC 8439 §2.1, the quarter round on four words. *)
Definition sp_QR (a b c d : N) : N * N * N * N :=
  let a := sp_plus a b in let d := N.lxor d a in let d := sp_roll d 16 in
  let c := sp_plus c d in let b := N.lxor b c in let b := sp_roll b 12 in
  let a := sp_plus a b in let d := N.lxor d a in let d := sp_roll d 8 in
  let c := sp_plus c d in let b := N.lxor b c in let b := sp_roll b 7 in
  (a, b, c, d).

(** RFC 8439 §2.3: one column round followed by one diagonal round. *)
Definition sp_double_round (s : list N) : list N :=
  match s with
  | [x0; x1; x2; x3; x4; x5; x6; x7; x8; x9; x10; x11; x12; x13; x14; x15] =>
      let '(x0, x4, x8, x12) := sp_QR x0 x4 x8 x12 in
      let '(x1, x5, x9, x13) := sp_QR x1 x5 x9 x13 in
      let '(x2, x6, x10, x14) := sp_QR x2 x6 x10 x14 in
      let '(x3, x7, x11, x15) := sp_QR x3 x7 x11 x15 in
      let '(x0, x5, x10, x15) := sp_QR x0 x5 x10 x15 in
      let '(x1, x6, x11, x12) := sp_QR x1 x6 x11 x12 in
      let '(x2, x7, x8, x13) := sp_QR x2 x7 x8 x13 in
      let '(x3, x4, x9, x14) := sp_QR x3 x4 x9 x14 in
      [x0; x1; x2; x3; x4; x5; x6; x7; x8; x9; x10; x11; x12; x13; x14; x15]
  | _ => []
  end.

(** The permutation: [dr] double rounds (10 for ChaCha20). *)
Definition sp_rounds (dr : nat) (s : list N) : list N := Nat.iter dr sp_double_round s.

(** Feed-forward: word-wise addition of the initial state. *)
Definition sp_core (dr : nat) (s : list N) : list N :=
  map (fun p => sp_plus (fst p) (snd p)) (combine (sp_rounds dr s) s).

(** Little-endian reading and writing of 32-bit words. *)
Definition sp_word (b : list N) (i : nat) : N :=
  nth (4 * i) b 0 + nth (4 * i + 1) b 0 * 2 ^ 8
  + nth (4 * i + 2) b 0 * 2 ^ 16 + nth (4 * i + 3) b 0 * 2 ^ 24.
Definition sp_words (n : nat) (b : list N) : list N := map (sp_word b) (seq 0 n).
Definition sp_byte (x i : N) : N := (x / 2 ^ (8 * i)) mod 2 ^ 8.
Definition sp_serialize (s : list N) : list N :=
  flat_map (fun w => [sp_byte w 0; sp_byte w 1; sp_byte w 2; sp_byte w 3]) s.

(** "expand 32-byte k" *)
Definition sp_constants : list N :=
  sp_words 4 (map N_of_ascii (list_ascii_of_string "expand 32-byte k")).

(** RFC 8439 §2.3: initial state for a 32-byte key, 32-bit counter, 12-byte nonce. *)
Definition sp_ietf_state (key : list N) (counter : N) (nonce : list N) : list N :=
  sp_constants ++ sp_words 8 key ++ [counter mod 2 ^ 32] ++ sp_words 3 nonce.
(** djb's original layout: 64-bit counter, 8-byte nonce. *)
Definition sp_djb_state (key : list N) (counter : N) (nonce : list N) : list N :=
  sp_constants ++ sp_words 8 key
  ++ [counter mod 2 ^ 32; (counter / 2 ^ 32) mod 2 ^ 32] ++ sp_words 2 nonce.

(** The ChaCha block functions: 64 bytes. *)
Definition sp_ietf_block (dr : nat) (key : list N) (counter : N) (nonce : list N) : list N :=
  sp_serialize (sp_core dr (sp_ietf_state key counter nonce)).
Definition sp_djb_block (dr : nat) (key : list N) (counter : N) (nonce : list N) : list N :=
  sp_serialize (sp_core dr (sp_djb_state key counter nonce)).

(** draft-irtf-cfrg-xchacha-03 §2.2: HChaCha, no feed-forward, first and last rows. *)
Definition sp_hchacha (dr : nat) (key input : list N) : list N :=
  let s := sp_rounds dr (sp_constants ++ sp_words 8 key ++ sp_words 4 input) in
  sp_serialize (firstn 4 s ++ skipn 12 s).

(** draft-irtf-cfrg-xchacha-03 §2.3: XChaCha block for a 24-byte nonce. *)
Definition sp_xchacha_block (dr : nat) (key : list N) (counter : N) (nonce : list N) : list N :=
  sp_ietf_block dr (sp_hchacha dr key (firstn 16 nonce)) counter ([0; 0; 0; 0] ++ skipn 16 nonce).
