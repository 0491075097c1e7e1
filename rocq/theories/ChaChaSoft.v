(** Model of [chacha20/src/backends/soft.rs]. *)
From Verif Require Export ChaChaCore ChaChaBackend.

(** [soft.rs:83-85]: element-wise wrapping addition. *)
Fixpoint zip_add32 (res state : list N) : list N :=
  match res, state with
  | s1 :: res', s0 :: state' => add32 s1 s0 :: zip_add32 res' state'
  | _, _ => res
  end.

(** [soft.rs:66-87]; [n] is [R::COUNT]. *)
Definition run_rounds (n : nat) (state : list N) : list N :=
  zip_add32 (iter_n n double_round state) state.

(** [soft.rs:33-45] *)
Definition soft_gen_ks_block (v : variant) (n : nat) (st : list N) : list N * list N :=
  let res := run_rounds n st in                                               (* :34 *)
  let ctr := N.lor (N.shiftl (get st 13) 32) (get st 12) in                   (* :35 *)
  let ctr := add64 ctr 1 in                                                   (* :36 *)
  let st := upd st 12 (as_u32 ctr) in                                         (* :37 *)
  let st := if (counter_size v =? 8)%nat then upd st 13 (as_u32 (N.shiftr ctr 32)) else st in (* :38-40 *)
  (bytes_of_words res, st).                                                   (* :42-44 *)

(** [soft.rs:27,31]: [ParBlocksSize = U1]; par/tail are the trait defaults. *)
Definition soft_backend (v : variant) (n : nat) : backend (list N) := {|
  par_blocks := 1;
  gen_one := soft_gen_ks_block v n;
  gen_par := soft_gen_ks_block v n;
  gen_tail := default_tail 1 (soft_gen_ks_block v n)
|}.

(** [lib.rs:245]: [f.call(&mut backends::soft::Backend(self))]. *)
Definition soft_inner (v : variant) (n : nat) (f : list req) (st : list N) : Res (list N * list N) :=
  run_reqs (soft_backend v n) f st.

(** Loop body of [soft.rs:52-61]. *)
Definition soft_rng_step (n : nat) (st : list N) : list N * list N :=
  let res := run_rounds n st in
  let ctr := N.lor (N.shiftl (get st 13) 32) (get st 12) in
  let ctr := add64 ctr 1 in
  let st := upd st 12 (as_u32 ctr) in
  let st := upd st 13 (as_u32 (N.shiftr ctr 32)) in
  (res, st).

(** [soft.rs:51-62]: four blocks of words, written to consecutive parts of [buffer]. *)
Definition soft_gen_ks_blocks (n : nat) (st : list N) : list N * list N :=
  gen_ones (soft_rng_step n) 4 st.
