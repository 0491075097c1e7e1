(** Specification of a stream cipher as seen by a caller: a machine whose only state
    is a byte position into a fixed keystream [ks : N -> N].  Nothing here refers to
    the Rust code or to the model. *)
From Coq Require Import Arith NArith List Bool.
Import ListNotations.
Open Scope N_scope.

(** [n] keystream bytes from position [p]. *)
Definition ks_range (ks : N -> N) (p : N) (n : nat) : list N :=
  map (fun i => ks (p + N.of_nat i)) (seq 0 n).
(** Byte-wise XOR of a message with the keystream at [p]. *)
Definition ks_xor (ks : N -> N) (p : N) (d : list N) : list N :=
  map (fun x => N.lxor (fst x) (snd x)) (combine d (ks_range ks p (length d))).
(** Keystream made of [bs]-byte blocks [blk 0], [blk 1], ... *)
Definition ks_of_blocks (bs : N) (blk : N -> list N) (j : N) : N :=
  nth (N.to_nat (j mod bs)) (blk (j / bs)) 0.

(** Calls a user can make. *)
Inductive op :=
| Apply (d : list N)                     (* try_apply_keystream, in place *)
| ApplyB2b (d : list N) (out_len : nat)  (* apply_keystream_b2b *)
| Write (n : nat)                        (* try_write_keystream into n bytes *)
| Seek (p : N)                           (* try_seek *)
| CurPos (tmax : N).                     (* try_current_pos::<T>, T has values < tmax *)
(** What a call returns. *)
Inductive ret :=
| Bytes (l : list N)
| Done
| Pos (p : N)
| Err.

(** Limits of a seekable keystream: block size and number of block-counter values. *)
Record limits := { l_bs : N; l_blocks : N }.
(** Whole period of the block counter, and usable length, in bytes. *)
Definition l_period (l : limits) : N := l_bs l * l_blocks l.
Definition l_usable (l : limits) : N := l_bs l * (l_blocks l - 1).

(** A request of [n] bytes at [p] is granted when it ends within the usable part;
    inside the final block (reachable only by seeking) when it ends within the usable
    part of the *next* period. *)
Definition granted (l : limits) (p : N) (n : N) : bool :=
  let q := p mod l_period l in
  if q <=? l_usable l then q + n <=? l_usable l
  else q + n <=? l_period l + l_usable l.

(** One step of the machine; [None]: panic ([strict]: seeking into the middle of the
    final block panics, as with overflow checks in [salsa20]). *)
Definition step_spec (ks : N -> N) (lim : option limits) (strict : bool) (p : N) (o : op)
  : option (ret * N) :=
  let ok n := match lim with None => true | Some l => granted l p (N.of_nat n) end in
  match o with
  | Apply d => if ok (length d) then Some (Bytes (ks_xor ks p d), p + N.of_nat (length d)) else Some (Err, p)
  | ApplyB2b d m =>
      if (length d =? m)%nat
      then if ok (length d) then Some (Bytes (ks_xor ks p d), p + N.of_nat (length d)) else Some (Err, p)
      else Some (Err, p)
  | Write n => if ok n then Some (Bytes (ks_range ks p n), p + N.of_nat n) else Some (Err, p)
  | Seek q =>
      match lim with
      | None => Some (Err, p)
      | Some l => if q / l_bs l <? l_blocks l
                  then if strict && (l_usable l <? q) then None else Some (Done, q)
                  else Some (Err, p)
      end
  | CurPos tmax =>
      match lim with
      | None => Some (Err, p)
      | Some l => let q := p mod l_period l in
                  let up := (q + l_bs l - 1) / l_bs l * l_bs l in   (* end of the current block *)
                  if (q <=? l_usable l) && (up <? tmax) then Some (Pos q, p) else Some (Err, p)
      end
  end.

(** A whole history: the list of answers, and the final position. *)
Fixpoint run_spec (ks : N -> N) (lim : option limits) (strict : bool) (p : N) (h : list op)
  : option (list ret * N) :=
  match h with
  | [] => Some ([], p)
  | o :: h' =>
      match step_spec ks lim strict p o with
      | None => None
      | Some (r, p') =>
          match run_spec ks lim strict p' h' with
          | None => None
          | Some (rs, p'') => Some (r :: rs, p'')
          end
      end
  end.
