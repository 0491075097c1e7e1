(** Specification of HC-256 (Hongjun Wu, "A New Stream Cipher HC-256", FSE 2004,
    sections 2.1-2.3).  Tables are functions on 0..1023 and the step number [i] grows
    without bound.  Nothing here refers to the Rust code or the model. *)
From Coq Require Import Arith NArith List.
Import ListNotations.
Open Scope N_scope.

Definition hc_add (a b : N) : N := (a + b) mod 2 ^ 32.                     (* + *)
Definition hc_sub (a b : N) : N := (a + 1024 - b) mod 1024.                (* minus modulo 1024 *)
Definition hc_rotr (x n : N) : N := x / 2 ^ n + (x mod 2 ^ n) * 2 ^ (32 - n).  (* >>> *)
Definition hc_shr (x n : N) : N := x / 2 ^ n.                              (* >> *)
(** Byte [k] of a word, 0 the least significant. *)
Definition hc_byte (x k : N) : N := x / 256 ^ k mod 256.

Definition hc_f1 (x : N) : N := N.lxor (N.lxor (hc_rotr x 7) (hc_rotr x 18)) (hc_shr x 3).
Definition hc_f2 (x : N) : N := N.lxor (N.lxor (hc_rotr x 17) (hc_rotr x 19)) (hc_shr x 10).
(** [g1] with the table Q, [g2] with the table P. *)
Definition hc_g (T : N -> N) (x y : N) : N :=
  hc_add (N.lxor (hc_rotr x 10) (hc_rotr y 23)) (T (N.lxor x y mod 1024)).
(** [h1] with the table Q, [h2] with the table P. *)
Definition hc_h (T : N -> N) (x : N) : N :=
  hc_add (hc_add (hc_add (T (hc_byte x 0)) (T (256 + hc_byte x 1))) (T (512 + hc_byte x 2))) (T (768 + hc_byte x 3)).

(** Key and IV as 8 little-endian words each. *)
Fixpoint hc_words (l : list N) : list N :=
  match l with
  | a :: b :: c :: d :: t => (a + 2 ^ 8 * b + 2 ^ 16 * c + 2 ^ 24 * d) :: hc_words t
  | _ => []
  end.
(** The expanded array: [hc_window i] is W(i) .. W(i+15);
    W(i+16) = f2(W(i+14)) + W(i+9) + f1(W(i+1)) + W(i) + (i+16). *)
Fixpoint hc_window (key iv : list N) (i : nat) : list N :=
  match i with
  | O => hc_words key ++ hc_words iv
  | S i' =>
      let w := hc_window key iv i' in
      let W k := nth k w 0 in
      tl w ++ [hc_add (hc_add (hc_add (hc_add (hc_f2 (W 14%nat)) (W 9%nat)) (hc_f1 (W 1%nat))) (W 0%nat)) (N.of_nat i' + 16)]
  end.
Definition hc_W (key iv : list N) (i : nat) : N := nth 0 (hc_window key iv i) 0.

Definition hc_upd (T : N -> N) (j v : N) : N -> N := fun x => if x =? j then v else T x.
(** Step [i] on the tables (P, Q): new tables and output word. *)
Definition hc_step (i : N) (t : (N -> N) * (N -> N)) : N * ((N -> N) * (N -> N)) :=
  let (P, Q) := t in
  let j := i mod 1024 in
  if i mod 2048 <? 1024 then
    let v := hc_add (hc_add (P j) (P (hc_sub j 10))) (hc_g Q (P (hc_sub j 3)) (P (hc_sub j 1023))) in
    let P := hc_upd P j v in
    (N.lxor (hc_h Q (P (hc_sub j 12))) (P j), (P, Q))
  else
    let v := hc_add (hc_add (Q j) (Q (hc_sub j 10))) (hc_g P (Q (hc_sub j 3)) (Q (hc_sub j 1023))) in
    let Q := hc_upd Q j v in
    (N.lxor (hc_h P (Q (hc_sub j 12))) (Q j), (P, Q)).
(** Tables after steps 0 .. n-1 from given tables. *)
Fixpoint hc_run (t : (N -> N) * (N -> N)) (n : nat) : (N -> N) * (N -> N) :=
  match n with O => t | S n' => snd (hc_step (N.of_nat n') (hc_run t n')) end.
(** Initial tables: P[i] = W(i+512), Q[i] = W(i+1536). *)
Definition hc_tables (key iv : list N) : (N -> N) * (N -> N) :=
  ((fun x => hc_W key iv (N.to_nat x + 512)), (fun x => hc_W key iv (N.to_nat x + 1536))).
(** Initialisation runs 4096 steps without output; keystream word [n] is then the output
    of step [n] (the step number starts again at 0). *)
Definition hc_init (key iv : list N) : (N -> N) * (N -> N) := hc_run (hc_tables key iv) 4096.
Definition hc_word (key iv : list N) (n : nat) : N :=
  fst (hc_step (N.of_nat n) (hc_run (hc_init key iv) n)).
