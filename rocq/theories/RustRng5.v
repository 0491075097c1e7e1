(** The text of the ChaCha generators' methods, run: [deserialize_state] and [==]. *)
From Coq Require Import String Lia.
From Verif Require Import WordLemmas ChaChaProofs ChaChaDispatchProofs RustLemmas RustMeth RustRngText.
From Verif Require Export RustRng4.
Local Open Scope string_scope.
Local Open Scope N_scope.
Local Open Scope list_scope.
Ltac rs_norm t ::=
  eval cbv -[run_fn run_rng loop for_body w_diff w_sum same_list
             add32 sub32 add64 xor32 rotl32 rotr32 w_add w_sub w_mul w_and w_or w_xor w_shl w_shr w_div w_mod w_trunc w_fits le_byte from_le N.pow] in t.
(** [rng.rs:317-337] *)
Lemma src_deserialize : forall ck usz n d state, In usz pointer_widths -> length state = 49%nat -> bytes state ->
  run_rng ck usz n (S (S (S d))) "ChaCha20Rng::deserialize_state" [VArr U8 state] =
  match deserialize_state (soft n) state with Ok r => XOk (rng_val r, [VArr U8 state]) | Panic => XPanic end.
Proof.
  intros ck usz n d state U L B. rng_enter. unfold deserialize_state. cbv zeta.
  assert (L1 : length (firstn 32 state) = 32%nat) by (rewrite firstn_length; lia).
  assert (L2 : length (firstn 8 (skipn 32 state)) = 8%nat) by (rewrite firstn_length, skipn_length; lia).
  assert (L3 : length (skipn 40 state) = 9%nat) by (rewrite skipn_length; lia).
  rewrite L1, L2, L3. cbn [Nat.eqb andb assert_ bind].
  pose proof (call_new_internal ck usz n (S d) (firstn 32 state) (firstn 8 (skipn 32 state)) L1) as HI. rewrite L2 in HI. specialize (HI (or_intror (or_introl eq_refl))).
  pose proof (call_new ck usz n (S d)) as HN.
  assert (HS : forall st, new_internal Legacy (firstn 32 state) (firstn 8 (skipn 32 state)) = Ok st -> core_ok st).
  { intros st. rewrite (new_internal_ok Legacy) by assumption. intros E. injection E as <-.
    apply mk_state_wf; [exact L1|exact L2|exact (bytes_firstn 32 _ B)|exact (bytes_firstn 8 _ (bytes_skipn 32 _ B))]. }
  destruct (new_internal Legacy (firstn 32 state) (firstn 8 (skipn 32 state))) as [st|]; cbn [of_res bind] in *.
  - specialize (HS st eq_refl). pose proof (src_set_word_pos ck usz n d (b_new st) (from_le (skipn 40 state ++ repeat 0 7)) U HS) as HP. specialize (HN st).
    revert HI HN HP. generalize (run_rng ck usz n (S (S d))) as cf. intros cf HI HN HP.
    cbv [rng_val] in *. generalize dependent (block_val (b_new st)). intros b HN HP. 
    generalize dependent (rng_set_word_pos (soft n) (b_new st) (from_le (skipn 40 state ++ repeat 0 7))). intros m HP.
    clear L1 L2 L3 B HS. destr_list state L. cbn [firstn skipn app repeat] in HI, HP.
    rs_body. do 4 rs_stmt. do 3 rs_stmt. rs_stmt. rewrite HI. rs_again. rs_stmt. unfold core_val in HN. rewrite HN. rs_again. rs_stmt. rewrite HP.
    destruct m as [r'|]; cbn [with_res]; [|reflexivity]. generalize (block_val r'). intros b'. rs_again. rewrite execs_nil. rs_lhs. reflexivity.
  - revert HI. generalize (run_rng ck usz n (S (S d))) as cf. intros cf HI. clear L1 L2 L3 B HS. destr_list state L. cbn [firstn skipn app repeat] in HI.
    rs_body. do 4 rs_stmt. do 3 rs_stmt. rs_stmt. rewrite HI. reflexivity.
Qed.
(** [rng.rs:176-182] *)
Ltac rs_norm t ::=
  eval cbv -[run_fn run_rng loop for_body w_diff w_sum same_list N.eqb
             add32 sub32 add64 xor32 rotl32 rotr32 w_add w_sub w_mul w_and w_or w_xor w_shl w_shr w_div w_mod w_trunc w_fits le_byte from_le N.pow] in t.
Ltac same H G := rewrite eval_bin by reflexivity; rs_flow; rs_expr; rewrite H; rs_again; rewrite G; rs_again.
Lemma src_eq : forall ck usz n d r r', In usz pointer_widths -> core_ok (b_core r) -> (b_idx r <= 64)%nat -> core_ok (b_core r') -> (b_idx r' <= 64)%nat ->
  run_rng ck usz n (S (S (S d))) "ChaCha20Rng::eq" [rng_val r; rng_val r'] = XOk (VBool (rng_eq r r'), [rng_val r; rng_val r']).
Proof.
  intros ck usz n d r r' U C I C' I'. rng_enter.
  pose proof (src_get_seed ck usz n (S d) r C) as H1. pose proof (src_get_stream ck usz n (S d) r C) as H2. pose proof (src_get_word_pos ck usz n d r U C I) as H3.
  pose proof (src_get_seed ck usz n (S d) r' C') as G1. pose proof (src_get_stream ck usz n (S d) r' C') as G2. pose proof (src_get_word_pos ck usz n d r' U C' I') as G3.
  revert H1 H2 H3 G1 G2 G3. generalize (run_rng ck usz n (S (S d))) as cf. intros cf H1 H2 H3 G1 G2 G3.
  unfold rng_eq. rewrite <- same_list_eqb.
  generalize dependent (get_seed r). intros seed H1. generalize dependent (get_stream r). intros s H2. generalize dependent (get_word_pos r). intros wp H3.
  generalize dependent (get_seed r'). intros seed' G1. generalize dependent (get_stream r'). intros s' G2. generalize dependent (get_word_pos r'). intros wp' G3.
  cbv [rng_val] in *. generalize dependent (block_val r). intros b H1 H2 H3. generalize dependent (block_val r'). intros b' G1 G2 G3.
  rs_body. rewrite execs_nil. rs_flow. rewrite eval_and. rs_flow. rewrite eval_and. rs_flow. same H1 G1.
  destruct (same_list seed seed'); cbn [andb]; [|rs_again; rs_lhs; reflexivity]. rs_again. rewrite H2. rs_again. rewrite G2. rs_again.
  destruct (s =? s'); cbn [andb]; [|rs_again; rs_lhs; reflexivity]. rs_again. rewrite H3. rs_again. rewrite G3. rs_again. rs_lhs. reflexivity.
Qed.
