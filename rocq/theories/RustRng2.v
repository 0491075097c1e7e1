(** The text of the ChaCha generators' methods, run: method by method. *)
From Coq Require Import String Lia.
From Verif Require Import WordLemmas RustLemmas RustMeth RustRngText.
From Verif Require Export RustRng.
Local Open Scope string_scope.
Local Open Scope N_scope.
Local Open Scope list_scope.
Ltac rs_norm t ::=
  eval cbv -[run_fn run_rng loop for_body
             add32 sub32 add64 xor32 rotl32 rotr32 w_add w_sub w_mul w_and w_or w_xor w_shl w_shr w_div w_mod w_trunc w_fits le_byte from_le N.pow] in t.

Ltac opened := cbv [rng_val block_val core_val b_core b_res b_idx] in *; repeat match goal with |- context [N.of_nat ?i] => is_var i; generalize dependent (N.of_nat i); intros end.
(** [rng.rs:154-156] *)
Lemma src_next_u32 : forall ck usz n d r, In usz pointer_widths -> core_ok (b_core r) ->
  run_rng ck usz n (S (S d)) "ChaCha20Rng::try_next_u32" [rng_val r] =
  let (x, r') := next_word (soft n) r in XOk (VCon "Ok" [VInt U32 x], [rng_val r']).
Proof.
  intros ck usz n d r U C. rng_enter.
  pose proof (call_next_word ck usz n d U r C) as HC. revert HC. generalize (run_rng ck usz n (S d)) as cf. intros cf HC.
  destruct (next_word (soft n) r) as [x r']. destruct r as [st res idx], r' as [st' res' idx'].
  opened. rs_body. rewrite execs_nil. rs_flow. rs_expr. rewrite HC. rs_lhs. reflexivity.
Qed.
(** [rng.rs:158-160] *)
Lemma src_next_u64 : forall ck usz n d r, In usz pointer_widths -> core_ok (b_core r) ->
  run_rng ck usz n (S (S d)) "ChaCha20Rng::try_next_u64" [rng_val r] =
  let (x, r') := next_u64 (soft n) r in XOk (VCon "Ok" [VInt U64 x], [rng_val r']).
Proof.
  intros ck usz n d r U C. rng_enter.
  pose proof (call_next_u64 ck usz n d U r C) as HC. revert HC. generalize (run_rng ck usz n (S d)) as cf. intros cf HC.
  destruct (next_u64 (soft n) r) as [x r']. destruct r as [st res idx], r' as [st' res' idx'].
  opened. rs_body. rewrite execs_nil. rs_flow. rs_expr. rewrite HC. rs_lhs. reflexivity.
Qed.
(** [rng.rs:142-147] *)
Lemma src_from_seed : forall ck usz n d seed, length seed = 32%nat ->
  run_rng ck usz n (S (S d)) "ChaCha20Rng::from_seed" [VArr U8 seed] =
  match rng_from_seed seed with Ok r => XOk (rng_val r, [VArr U8 seed]) | Panic => XPanic end.
Proof.
  intros ck usz n d seed H. rng_enter.
  pose proof (call_new_internal ck usz n d seed (repeat 0 8) H (or_intror (or_introl eq_refl))) as HI.
  pose proof (call_new ck usz n d) as HN. unfold rng_from_seed. revert HI HN.
  generalize (run_rng ck usz n (S d)) as cf. intros cf HI HN.
  rs_body. rs_stmt. cbn [repeat] in HI. rewrite HI.
  destruct (new_internal Legacy seed _) as [st|]; cbn [of_res bind]; [|reflexivity].
  rs_again. rewrite execs_nil. rs_flow. rs_expr. unfold core_val at 1 in HN. rewrite HN. unfold b_new. generalize (repeat 0 BUFFER_SIZE). intros z. rs_lhs. reflexivity.
Qed.
(** [rng.rs:272-277] *)
Lemma src_get_stream : forall ck usz n d r, core_ok (b_core r) ->
  run_rng ck usz n (S d) "ChaCha20Rng::get_stream" [rng_val r] = XOk (VInt U64 (get_stream r), [rng_val r]).
Proof.
  intros ck usz n d r [H W]. rng_enter. destruct r as [st res idx]. cbn [b_core] in *. opened. destr_list st H. rs_body. do 3 rs_stmt. rewrite execs_nil. rs_lhs. unfold get_stream. rewrite !le_bytes4. reflexivity.
Qed.
(** [rng.rs:282-289] *)
Lemma src_get_seed : forall ck usz n d r, core_ok (b_core r) ->
  run_rng ck usz n (S d) "ChaCha20Rng::get_seed" [rng_val r] = XOk (VArr U8 (get_seed r), [rng_val r]).
Proof.
  intros ck usz n d r [H W]. rng_enter. destruct r as [st res idx]. cbn [b_core] in *. opened. destr_list st H. rs_body. do 2 rs_stmt. rs_stmt_all. rewrite execs_nil. rs_lhs. unfold get_seed, slice. cbn [b_core firstn skipn Nat.sub flat_map app]. rewrite !le_bytes4. reflexivity.
Qed.
(** [rng.rs:242-245] *)
Lemma src_rng_set_block_pos : forall ck usz n d r pos t, In usz pointer_widths -> core_ok (b_core r) -> In t [U64; Any] ->
  run_rng ck usz n (S (S d)) "ChaCha20Rng::set_block_pos" [rng_val r; VInt t pos] =
  with_res (rng_set_block_pos (soft n) r pos) (fun r => XOk (VUnit, [rng_val r; VInt U64 pos])).
Proof.
  intros ck usz n d r pos t U C T. rng_enter.
  pose proof (call_reset ck usz n d U r Any 0 C) as HR. change (N.to_nat 0) with 0%nat in HR.
  unfold rng_set_block_pos. unfold reset_and_skip in *. cbn [Nat.eqb bind with_res] in *. cbn [b_core b_res b_idx].
  pose proof (call_set_pos ck usz n d (b_core r) pos (proj1 C)) as HS. revert HR HS.
  generalize (run_rng ck usz n (S d)) as cf. intros cf HR HS. 
  destruct r as [st res idx]. cbn [b_core b_res b_idx] in *. cbv [BUFFER_SIZE] in HR. opened.
  generalize dependent (set_block_pos Legacy st pos). intros st' HS.
  destruct T as [<-|[<-|[]]]; rs_body; rs_stmt; rewrite HR; rs_again; rs_stmt; rewrite HS; rs_again; rewrite execs_nil; rs_lhs; reflexivity.
Qed.
