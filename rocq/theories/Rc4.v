(** Model of [rc4/src/lib.rs].  Array accesses with run-time indices are checked. *)
From Verif Require Export Word Res.
From Verif Require Import SpecStream.   (* only for the [op]/[ret] vocabulary *)

(** [rc4/src/lib.rs:20-24] *)
Record rc4 := { k_state : list N; k_i : N; k_j : N }.

(** [rc4/src/lib.rs:27-29], [:31-33] *)
Definition s_i (s : rc4) : Res N := idx (k_state s) (k_i s).
Definition s_j (s : rc4) : Res N := idx (k_state s) (k_j s).

(** [u8::wrapping_add] *)
Definition add8 (a b : N) : N := (a + b) mod 256.

(** [<[u8]>::swap]: panics when an index is out of bounds. *)
Definition swap (l : list N) (a b : N) : Res (list N) :=
  do x <- idx l a; do y <- idx l b;
  do l <- set_idx l a y; set_idx l b x.

(** [rc4/src/lib.rs:35-44] *)
Definition prga (s : rc4) : Res (N * rc4) :=
  let s := {| k_state := k_state s; k_i := add8 (k_i s) 1; k_j := k_j s |} in       (* :36 *)
  do si <- s_i s;
  let s := {| k_state := k_state s; k_i := k_i s; k_j := add8 (k_j s) si |} in      (* :37 *)
  do st <- swap (k_state s) (k_i s) (k_j s);
  let s := {| k_state := st; k_i := k_i s; k_j := k_j s |} in                       (* :39 *)
  do si <- s_i s; do sj <- s_j s;
  let index := add8 si sj in                                                        (* :41 *)
  do o <- idx (k_state s) index;                                                    (* :43 *)
  Ok (o, s).

(** Body of the closure at [:70-73]; [key_iter] is [key.iter().cycle()]: its [i]-th item
    is [key[i % len]]. *)
Definition ksa_step (key : list N) (i : nat) (a : list N * N) : Res (list N * N) :=
  let (state, j) := a in
  do si <- idx state (N.of_nat i);
  do k <- idx key (N.of_nat (i mod length key)%nat);
  let j := add8 (add8 j si) k in                                                    (* :71 *)
  do state <- swap state (N.of_nat i) j;                                            (* :72 *)
  Ok (state, j).

(** [rc4/src/lib.rs:58-76]; [Ok None] is [Err(InvalidLength)].  [u8::try_from(i)] at [:63]
    is checked for every [i]. *)
Definition new_from_slice (key : list N) : Res (option rc4) :=
  if ((length key <? 1) || (256 <? length key))%nat then Ok None                    (* :59-61 *)
  else
    do _ <- assert_ (forallb (fun i => N.of_nat i <? 256) (seq 0 256));
    let state := map N.of_nat (seq 0 256) in                                        (* :63 *)
    do (state, _) <- for_ (seq 0 256) (ksa_step key) (state, 0);                    (* :65-73 *)
    Ok (Some {| k_state := state; k_i := 0; k_j := 0 |}).                           (* :75 *)

(** [rc4/src/lib.rs:53-55]: panics ([expect]) on an error. *)
Definition rc4_new (key : list N) : Res rc4 :=
  do r <- new_from_slice key; match r with Some s => Ok s | None => Panic end.

(** [rc4/src/lib.rs:85-87] *)
Definition rc4_check_remaining (s : rc4) (len : nat) : bool := true.
(** [rc4/src/lib.rs:90-95] *)
Fixpoint rc4_apply (s : rc4) (d : list N) : Res (list N * rc4) :=
  match d with
  | [] => Ok ([], s)
  | b :: d' => do (ks, s1) <- prga s;
               do (o, s2) <- rc4_apply s1 d'; Ok (N.lxor ks b :: o, s2)
  end.
(** [rc4/src/lib.rs:98-100] *)
Fixpoint rc4_write (s : rc4) (n : nat) : Res (list N * rc4) :=
  match n with
  | O => Ok ([], s)
  | S n' => do (ks, s1) <- prga s;
            do (o, s2) <- rc4_write s1 n'; Ok (ks :: o, s2)
  end.

(** The provided methods of [cipher::StreamCipher] (environment contract) over the three
    above: check, then the unchecked call; [Seek]/[CurPos] do not exist for RC4. *)
Definition rc4_step (s : rc4) (o : op) : Res (ret * rc4) :=
  let lift len m := if rc4_check_remaining s len then do (b, s') <- m; Ok (Bytes b, s') else Ok (Err, s) in
  match o with
  | Apply d => lift (length d) (rc4_apply s d)
  | ApplyB2b d m => if (length d =? m)%nat then lift (length d) (rc4_apply s d) else Ok (Err, s)
  | Write n => lift n (rc4_write s n)
  | Seek _ | CurPos _ => Ok (Err, s)
  end.
Fixpoint rc4_run (s : rc4) (h : list op) : Res (list ret * rc4) :=
  match h with
  | [] => Ok ([], s)
  | o :: h' => do (r, s1) <- rc4_step s o; do (rs, s2) <- rc4_run s1 h'; Ok (r :: rs, s2)
  end.
