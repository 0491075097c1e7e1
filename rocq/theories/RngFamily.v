(** A program with any number of generators of the three types: seeded, drawn from each
    other, saved and restored, compared.  Generators of different types live side by
    side; each is kept with its number of double rounds. *)
From Verif Require Import Word Res SpecRng ChaChaCore ChaChaDispatch BlockRng ChaChaRng.

(** The build, the CPU and the overflow checks under which a call runs; a saved generator may
    be restored elsewhere, so every call has its own. *)
Record site := { s_cfg : config; s_cpu : cpu; s_ck : bool }.
(** The programs.  Generators are numbered in the order of their creation. *)
Inductive fop :=
| FSeed (n : nat) (seed : list N)     (* [from_seed] *)
| FCall (i : nat) (o : rop)           (* a call on generator [i] *)
| FFrom (i n : nat)                   (* [from_rng(&mut g_i)] *)
| FRestore (i n : nat)                (* [deserialize_state(&g_i.serialize_state())] *)
| FSame (i j : nat).                  (* [g_i == g_j] *)
Inductive fret := FMade | FSaid (x : rret) | FTold (b : bool) | FBad.

(** [SeedableRng::from_rng] of [rand_core] (environment contract, as used at
    [chacha20/tests/rng.rs:183-193]): fill a seed of 32 bytes, then [from_seed]
    [chacha20/src/rng.rs:142-147]. *)
Definition rng_from_rng (G : list N -> list N * list N) (r : rng) : Res (rng * rng) :=
  let (seed, r') := fill_bytes G r 32 in
  do c <- rng_from_seed seed; Ok (c, r').

Definition put {A} (l : list A) (i : nat) (x : A) : list A := firstn i l ++ x :: skipn (S i) l.
(** One operation.  The generators are not [Clone]; copies go through [serialize_state].
    Comparing generators of different types does not type-check in Rust, and numbers that name no generator do not
    exist there: [FBad]. *)
Definition fam_step (s : site) (l : list (nat * rng)) (o : fop) : Res (fret * list (nat * rng)) :=
  let G n := rng_gen (s_cfg s) (s_cpu s) n in
  match o with
  | FSeed n seed => do r <- rng_from_seed seed; Ok (FMade, l ++ [(n, r)])
  | FCall i o =>
      match nth_error l i with
      | Some (n, r) => do (x, r') <- rng_step (G n) (s_ck s) r o; Ok (FSaid x, put l i (n, r'))
      | None => Ok (FBad, l)
      end
  | FFrom i n' =>
      match nth_error l i with
      | Some (n, r) => do (c, r') <- rng_from_rng (G n) r; Ok (FMade, put l i (n, r') ++ [(n', c)])
      | None => Ok (FBad, l)
      end
  | FRestore i n' =>
      match nth_error l i with
      | Some (n, r) => do a <- serialize_state (s_ck s) r; do r' <- deserialize_state (G n') a; Ok (FMade, l ++ [(n', r')])
      | None => Ok (FBad, l)
      end
  | FSame i j =>
      match nth_error l i, nth_error l j with
      | Some (n, r), Some (m, r') => if (n =? m)%nat then Ok (FTold (rng_eq r r'), l) else Ok (FBad, l)
      | _, _ => Ok (FBad, l)
      end
  end.
Fixpoint fam_run (l : list (nat * rng)) (h : list (site * fop)) : Res (list fret * list (nat * rng)) :=
  match h with
  | [] => Ok ([], l)
  | (s, o) :: h' => do (x, l1) <- fam_step s l o; do (xs, l2) <- fam_run l1 h'; Ok (x :: xs, l2)
  end.
