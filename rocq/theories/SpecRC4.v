(** Specification of RC4 (as in Schneier, "Applied Cryptography" 17.1; the vectors are
    RFC 6229).  The permutation is a function on 0..255.  Nothing here refers to the Rust
    code or the model. *)
From Coq Require Import Arith NArith List.
Import ListNotations.
Open Scope N_scope.

Definition rc_swap (P : N -> N) (a b : N) : N -> N :=
  fun x => if x =? a then P b else if x =? b then P a else P x.

(** Key schedule: after [n] of its 256 steps, for a key [K] repeated cyclically. *)
Fixpoint rc_ksa (key : list N) (n : nat) : (N -> N) * N :=
  match n with
  | O => ((fun x => x), 0)
  | S i =>
      let (P, j) := rc_ksa key i in
      let j := (j + P (N.of_nat i) + nth (i mod length key)%nat key 0) mod 256 in
      (rc_swap P (N.of_nat i) j, j)
  end.

(** Generator: one step on (P, i, j), its output, and iteration. *)
Definition rc_step (st : (N -> N) * N * N) : (N -> N) * N * N :=
  let '(P, i, j) := st in
  let i := (i + 1) mod 256 in
  let j := (j + P i) mod 256 in
  (rc_swap P i j, i, j).
Definition rc_out (st : (N -> N) * N * N) : N := let '(P, i, j) := st in P ((P i + P j) mod 256).
Definition rc_init (key : list N) : (N -> N) * N * N := (fst (rc_ksa key 256), 0, 0).
(** Keystream byte [n]. *)
Definition rc_byte (key : list N) (n : nat) : N := rc_out (Nat.iter (S n) rc_step (rc_init key)).
