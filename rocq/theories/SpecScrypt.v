(** Specification of the mixing part of scrypt, after RFC 7914 (sections 3 to 5), on lists of
    octets.  Nothing here refers to the Rust code or the model. *)
From Verif Require Import SpecSalsa.
From Coq Require Import Arith NArith List Bool.
Import ListNotations.
Open Scope N_scope.

(** §3: the Salsa20/8 core on 64 octets. *)
Definition sc_core (b : list N) : list N := ss_hash 4 b.
Definition sc_xor (a b : list N) : list N := map (fun p => N.lxor (fst p) (snd p)) (combine a b).

(** §4, scryptBlockMix.  B[0], ..., B[2r-1]: 64-octet blocks. *)
Definition sc_split (b : list N) : list (list N) := map (fun i => firstn 64 (skipn (64 * i) b)) (seq 0 (length b / 64)).
(** "X = B[2 * r - 1]; for i = 0 to 2 * r - 1 do T = X xor B[i]; X = Salsa (T); Y[i] = X": the
    list of the Y[i], and (for the panics of the code) of the T. *)
Fixpoint sc_chain (x : list N) (bs : list (list N)) {struct bs} : list (list N) :=
  match bs with [] => [] | b :: bs' => let y := sc_core (sc_xor x b) in y :: sc_chain y bs' end.
Fixpoint sc_chain_in (x : list N) (bs : list (list N)) {struct bs} : list (list N) :=
  match bs with [] => [] | b :: bs' => let t := sc_xor x b in t :: sc_chain_in (sc_core t) bs' end.
(** "B' = (Y[0], Y[2], ..., Y[2 * r - 2], Y[1], Y[3], ..., Y[2 * r - 1])". *)
Fixpoint sc_evens {A} (l : list A) : list A := match l with a :: _ :: l' => a :: sc_evens l' | [a] => [a] | [] => [] end.
Definition sc_odds {A} (l : list A) : list A := match l with [] => [] | _ :: l' => sc_evens l' end.
Definition sc_blockmix (b : list N) : list N :=
  let y := sc_chain (last (sc_split b) []) (sc_split b) in concat (sc_evens y ++ sc_odds y).
Definition sc_blockmix_in (b : list N) : list (list N) := sc_chain_in (last (sc_split b) []) (sc_split b).

(** §5, scryptROMix.  Integerify: the last 64 octets as a little-endian integer. *)
Fixpoint sc_int (b : list N) : N := match b with [] => 0 | x :: b' => x + 256 * sc_int b' end.
Definition sc_integerify (b : list N) : N := sc_int (skipn (length b - 64) b).
(** Step 2: V[i]; the value of X after it is V[N]. *)
Definition sc_v (b : list N) (i : nat) : list N := Nat.iter i sc_blockmix b.
(** Step 3: "j = Integerify (X) mod N; T = X xor V[j]; X = scryptBlockMix (T)". *)
Definition sc_t (n : N) (b x : list N) : list N := sc_xor x (sc_v b (N.to_nat (sc_integerify x mod n))).
Definition sc_x (n : N) (b : list N) (i : nat) : list N := Nat.iter i (fun x => sc_blockmix (sc_t n b x)) (sc_v b (N.to_nat n)).
Definition sc_romix (n : N) (b : list N) : list N := sc_x n b (N.to_nat n).
(** The inputs of all calls of the Salsa20/8 core. *)
Definition sc_romix_in (n : N) (b : list N) : list (list N) :=
  flat_map (fun i => sc_blockmix_in (sc_v b i)) (seq 0 (N.to_nat n))
  ++ flat_map (fun i => sc_blockmix_in (sc_t n b (sc_x n b i))) (seq 0 (N.to_nat n)).
