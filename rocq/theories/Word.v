(** Machine words and byte strings.

    A Rust [u8]/[u32]/[u64]/[u128] is an [N]; each operation below is defined on
    every [N] by reducing its operands, so a value denotes its residue modulo the
    width.  Well-formedness ([< 2^w]) is a separate invariant. *)

From Coq Require Export Arith NArith List Bool.
From Coq Require Import ZArith Lia ZifyBool ZifyNat ZifyN.
Export ListNotations.
Open Scope N_scope.

(** 2^32 and 2^64, as literals (cheap to compute with, transparent for [lia]). *)
Notation M32 := 4294967296%N.
Notation M64 := 18446744073709551616%N.

(** ** Word operations used by the Rust code *)

(** [u32::wrapping_add] (core). *)
Definition add32 (a b : N) : N := (a + b) mod M32.
(** [u32::wrapping_sub] (core). *)
Definition sub32 (a b : N) : N := (a + (M32 - b mod M32)) mod M32.
(** [u64::wrapping_add] (core). *)
Definition add64 (a b : N) : N := (a + b) mod M64.
(** [^] on [u32]. *)
Definition xor32 (a b : N) : N := N.lxor a b.
(** [u32::rotate_left] (core): bits shifted out re-enter at the bottom. *)
Definition rotl32 (x r : N) : N :=
  N.lor ((N.shiftl x r) mod M32) (N.shiftr (x mod M32) (32 - r)).
(** [u32::rotate_right] (core). *)
Definition rotr32 (x r : N) : N := rotl32 x (32 - r).
(** [as u32] on a wider integer (core): truncation. *)
Definition as_u32 (x : N) : N := x mod M32.
(** [as u8] on a wider integer (core): truncation. *)
Definition as_u8 (x : N) : N := x mod 256.

(** ** Arrays *)

(** [a[i]] for an index known to be in range (literal indices). *)
Definition get (l : list N) (i : nat) : N := nth i l 0.
(** [a[i] = v]; the list is unchanged when [i] is out of range. *)
Fixpoint upd {A} (l : list A) (i : nat) (v : A) : list A :=
  match l, i with
  | [], _ => []
  | _ :: t, O => v :: t
  | h :: t, S i' => h :: upd t i' v
  end.
(** [a[lo..lo+n]]. *)
Definition slice {A} (l : list A) (lo n : nat) : list A := firstn n (skipn lo l).

(** ** Little-endian byte conversions *)

(** [uN::to_le_bytes] (core), [n] bytes. *)
Fixpoint to_le (n : nat) (x : N) : list N :=
  match n with
  | O => []
  | S n' => x mod 256 :: to_le n' (x / 256)
  end.
(** [uN::from_le_bytes] (core). *)
Fixpoint from_le (l : list N) : N :=
  match l with
  | [] => 0
  | b :: t => b + 256 * from_le t
  end.
(** [bytes.chunks_exact(4).map(u32::from_le_bytes)]: an incomplete final chunk is dropped. *)
Fixpoint words_of_bytes (l : list N) : list N :=
  match l with
  | a :: b :: c :: d :: t => from_le [a; b; c; d] :: words_of_bytes t
  | _ => []
  end.
(** [words.flat_map(u32::to_le_bytes)]. *)
Definition bytes_of_words (l : list N) : list N := flat_map (to_le 4) l.

(** [for _ in 0..n { x = f(x) }]. *)
Fixpoint iter_n {A} (n : nat) (f : A -> A) (x : A) : A :=
  match n with
  | O => x
  | S n' => iter_n n' f (f x)
  end.

(** ** Well-formedness *)
Definition W8 (x : N) : Prop := x < 256.
Definition W32 (x : N) : Prop := x < M32.
Definition bytes (l : list N) : Prop := Forall W8 l.
Definition words (l : list N) : Prop := Forall W32 l.

(** XOR of byte strings, truncated to the shorter. *)
Fixpoint xorb_list (a b : list N) : list N :=
  match a, b with
  | x :: a', y :: b' => N.lxor x y :: xorb_list a' b'
  | _, _ => []
  end.
