(** Environment contract: [rand_core::block::BlockRng] (rand_core 0.10.1) over a generator
    of [[u32; 64]].  The crate is not in the repository; it is modelled from its
    documented behaviour.

    Simplification: the crate keeps the index in [results[0]] (a word no longer needed
    once the index is at least 1); here it is a separate field ([Packed.v] and C86 remove
    this simplification). *)
From Verif Require Export Word Res.

Definition BUFFER_SIZE : nat := 64.   (* [chacha20/src/rng.rs:28-33] *)

(** [BlockRng { core, results }]; index in [1..=64], 64 meaning exhausted. *)
Record brng := { b_core : list N; b_res : list N; b_idx : nat }.

Section BlockRng.
  (** [Generator::generate]: the 64 words and the new core. *)
  Context (G : list N -> list N * list N).

  (** [BlockRng::new] *)
  Definition b_new (core : list N) : brng := {| b_core := core; b_res := repeat 0 BUFFER_SIZE; b_idx := BUFFER_SIZE |}.
  (** [BlockRng::word_offset] *)
  Definition word_offset (b : brng) : nat := if (b_idx b =? BUFFER_SIZE)%nat then 0 else b_idx b.
  (** [BlockRng::reset_and_skip] *)
  Definition reset_and_skip (b : brng) (n : nat) : Res brng :=
    if (n =? 0)%nat then Ok {| b_core := b_core b; b_res := b_res b; b_idx := BUFFER_SIZE |}
    else do _ <- assert_ (n <? BUFFER_SIZE)%nat;
         let (res, core) := G (b_core b) in Ok {| b_core := core; b_res := res; b_idx := n |}.
  (** Refill when exhausted: the buffer is then read from index 0. *)
  Definition refill (b : brng) : brng :=
    if (BUFFER_SIZE <=? b_idx b)%nat
    then let (res, core) := G (b_core b) in {| b_core := core; b_res := res; b_idx := 0 |}
    else b.
  (** [BlockRng::next_word] *)
  Definition next_word (b : brng) : N * brng :=
    let b := refill b in
    (get (b_res b) (b_idx b), {| b_core := b_core b; b_res := b_res b; b_idx := S (b_idx b) |}).
  (** [BlockRng::next_u64_from_u32]: three cases on the index. *)
  Definition next_u64 (b : brng) : N * brng :=
    let read res i := N.lor (N.shiftl (get res (S i)) 32) (get res i) in
    let index := b_idx b in
    if (index <? BUFFER_SIZE - 1)%nat
    then (read (b_res b) index, {| b_core := b_core b; b_res := b_res b; b_idx := index + 2 |})
    else if (BUFFER_SIZE <=? index)%nat
    then let (res, core) := G (b_core b) in (read res 0%nat, {| b_core := core; b_res := res; b_idx := 2 |})
    else let x := get (b_res b) (BUFFER_SIZE - 1) in
         let (res, core) := G (b_core b) in
         (N.lor (N.shiftl (get res 0) 32) x, {| b_core := core; b_res := res; b_idx := 1 |}).
  (** [BlockRng::fill_bytes]: chunk after chunk of the buffer ([fill_via_chunks] rounds
      the words consumed up).  [fuel] bounds the number of iterations; [dest.len()] is
      always enough, since each iteration writes at least one byte. *)
  Fixpoint fill_loop (fuel : nat) (b : brng) (len : nat) : list N * brng :=
    match fuel with
    | O => ([], b)
    | S fuel =>
        if (len =? 0)%nat then ([], b)
        else let b := refill b in
             let words := skipn (b_idx b) (b_res b) in
             let filled := Nat.min (4 * length words) len in
             let consumed := ((filled + 3) / 4)%nat in
             let chunk := firstn filled (bytes_of_words words) in
             let (rest, b) := fill_loop fuel {| b_core := b_core b; b_res := b_res b; b_idx := b_idx b + consumed |} (len - filled) in
             (chunk ++ rest, b)
    end.
  Definition fill_bytes (b : brng) (len : nat) : list N * brng := fill_loop len b len.
End BlockRng.
