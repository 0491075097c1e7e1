(** The text of the ChaCha generators' methods, run: streams and positions. *)
From Coq Require Import String Lia.
From Verif Require Import WordLemmas RustLemmas RustMeth RustRngText.
From Verif Require Export RustRng2.
Local Open Scope string_scope.
Local Open Scope N_scope.
Local Open Scope list_scope.
Ltac rs_norm t ::=
  eval cbv -[run_fn run_rng loop for_body w_diff w_sum
             add32 sub32 add64 xor32 rotl32 rotr32 w_add w_sub w_mul w_and w_or w_xor w_shl w_shr w_div w_mod w_trunc w_fits le_byte from_le N.pow] in t.
(** [rng.rs:263-267] *)
Lemma upd_ok st i x : core_ok st -> core_ok (upd st i (as_u32 x)).
Proof. intros [H W]. split; [rewrite upd_len; exact H|]. apply Forall_upd; [exact W|]. apply N.mod_lt. discriminate. Qed.
Lemma src_set_stream : forall ck usz n d r s, In usz pointer_widths -> core_ok (b_core r) ->
  run_rng ck usz n (S (S (S d))) "ChaCha20Rng::set_stream" [rng_val r; VInt U64 s] =
  with_res (set_stream (soft n) r s) (fun r => XOk (VUnit, [rng_val r; VInt U64 s])).
Proof.
  intros ck usz n d r s U C. rng_enter. unfold set_stream.
  destruct r as [st res idx]. cbn [b_core b_res b_idx] in *.
  pose proof (src_rng_set_block_pos ck usz n d {| b_core := upd (upd st 14 (as_u32 s)) 15 (as_u32 (N.shiftr s 32)); b_res := res; b_idx := idx |} 0 Any U
    (upd_ok _ _ _ (upd_ok _ _ _ C)) (or_intror (or_introl eq_refl))) as HS.
  revert HS. unfold rng_set_block_pos, reset_and_skip. cbn [Nat.eqb bind with_res b_core b_res b_idx].
  generalize (set_block_pos Legacy (upd (upd st 14 (as_u32 s)) 15 (as_u32 (N.shiftr s 32))) 0). intros st'.
  generalize (run_rng ck usz n (S (S d))) as cf. intros cf HS. cbv [BUFFER_SIZE] in *. destruct C as [H W]. opened. destr_list st H. cbv [upd] in HS.
  unfold as_u32 in HS. change (s mod M32) with (w_trunc 4294967296 s) in HS. change (N.shiftr s 32 mod M32) with (w_trunc 4294967296 (w_shr s 32)) in HS.
  rs_body. do 2 rs_stmt. rs_stmt.
  rewrite HS. rs_again. rewrite execs_nil. rs_lhs. reflexivity.
Qed.
(** [rng.rs:251-259] *)
Lemma src_rng_get_block_pos : forall ck usz n d r, In usz pointer_widths -> core_ok (b_core r) -> (b_idx r <= 64)%nat ->
  run_rng ck usz n (S (S d)) "ChaCha20Rng::get_block_pos" [rng_val r] =
  match rng_get_block_pos ck r with Ok x => XOk (VInt U64 x, [rng_val r]) | Panic => XPanic end.
Proof.
  intros ck usz n d r U C I. rng_enter.
  pose proof (call_offset ck usz n d r) as HO. pose proof (call_get_pos ck usz n d (b_core r) C) as HP. revert HO HP.
  generalize (run_rng ck usz n (S d)) as cf. intros cf HO HP. unfold rng_get_block_pos. 
  assert (L : (word_offset r <= 64)%nat) by (unfold word_offset; destruct (_ =? _)%nat; lia). 
  assert (E0 : (word_offset r =? 0)%nat = (N.of_nat (word_offset r) =? 0)) by (destruct (Nat.eqb_spec (word_offset r) 0), (N.eqb_spec (N.of_nat (word_offset r)) 0); reflexivity || lia).
  rewrite E0. assert (L2 : N.of_nat (word_offset r) < M64) by (change M64 with 18446744073709551616; lia). clear L E0.
  generalize dependent (N.of_nat (word_offset r)). intros off HO L2. generalize dependent (get_block_pos Legacy (b_core r)). intros ctr HP.
  destruct r as [st res idx]. opened.
  rs_body. rs_stmt. rewrite HP. rs_again. rs_stmt. rewrite HO. rs_again. rewrite execs_nil. rs_flow. rewrite eval_if. rs_flow. rs_expr.
  destruct off as [|off].
  - rs_lhs. reflexivity.
  - change (N.pos off =? 0) with false. cbv iota. rs_again.
    destruct U as [<-|[<-|[<-|[]]]].
    all: rs_again; change (w_sub ck 18446744073709551616 ctr 4) with (sub_ck ck M64 ctr BUF_BLOCKS).
    all: destruct (sub_ck ck M64 ctr BUF_BLOCKS) as [y|]; cbn [bind]; [|reflexivity]; rs_flow.
    all: match goal with |- context [w_add ?c ?m ?y0 ?z] => change (w_add c m y0 z) with (add_ck ck M64 y (N.pos off / BLOCK_WORDS)) end.
    all: destruct (add_ck ck M64 y (N.pos off / BLOCK_WORDS)) as [z|]; [|reflexivity]; rs_lhs; reflexivity.
Qed.
(** [rng.rs:202-212] *)
Ltac word_tail ctr HO tail LC U :=
    rs_stmt; specialize (tail ctr LC);
    match goal with |- context [w_mul ?a ?b ?c ?e] => change (w_mul a b c e) with (mul_ck a b c e) end; rewrite mul_ck_ok by lia;
    rs_flow; rewrite HO; clear HO; generalize dependent (ctr * 16); intros wp tail; rs_again;
    destruct U as [<-|[<-|[<-|[]]]]; rs_again;
    (match goal with |- context [w_add ?a ?b ?c ?e] => change (w_add a b c e) with (add_ck a b c e) end; rewrite add_ck_ok by lia; rs_flow;
     match goal with |- context [wp + ?o] => generalize (wp + o); intros sum end; rs_again; rewrite execs_nil; rs_lhs; reflexivity).
Lemma src_get_word_pos : forall ck usz n d r, In usz pointer_widths -> core_ok (b_core r) -> (b_idx r <= 64)%nat ->
  run_rng ck usz n (S (S d)) "ChaCha20Rng::get_word_pos" [rng_val r] = XOk (VInt U128 (get_word_pos r), [rng_val r]).
Proof.
  intros ck usz n d r U C I. rng_enter.
  pose proof (call_offset ck usz n d r) as HO. revert HO.
  generalize (run_rng ck usz n (S d)) as cf. intros cf HO. unfold get_word_pos. 
  assert (L : (word_offset r <= 64)%nat) by (unfold word_offset; destruct (_ =? _)%nat; lia). 
  assert (E0 : (word_offset r =? 0)%nat = (N.of_nat (word_offset r) =? 0)) by (destruct (Nat.eqb_spec (word_offset r) 0), (N.eqb_spec (N.of_nat (word_offset r)) 0); reflexivity || lia).
  rewrite E0. assert (L2 : N.of_nat (word_offset r) <= 64) by lia. clear L E0.
  generalize dependent (N.of_nat (word_offset r)). intros off HO L2. 
  destruct r as [st res idx]. destruct C as [H W]. cbn [b_core b_res b_idx] in *. opened. destr_list st H.
  assert (W2 : x11 < M32) by (apply (Forall_get W32 _ 12 W); reflexivity).
  assert (W3 : x12 < M32) by (apply (Forall_get W32 _ 13 W); reflexivity).
  change (get _ 12) with x11. change (get _ 13) with x12.
  rs_body. rs_stmt. rewrite (shl_small _ _ _ M32 W3) by (cbv; discriminate).
  change (w_or (N.shiftl x12 32) x11) with (N.lor (N.shiftl x12 32) x11).
  assert (LC : N.lor (N.shiftl x12 32) x11 < M64).
  { rewrite N.shiftl_mul_pow2. change M64 with (2 ^ 64). change M32 with (2 ^ 32) in *. apply lor_lt_pow2; [change (2 ^ 64) with (2 ^ 32 * 2 ^ 32)|change (2 ^ 64) with 18446744073709551616; change (2 ^ 32) with 4294967296 in *]; lia. }
  generalize dependent (N.lor (N.shiftl x12 32) x11). intros ctr LC. clear W2 W3.
  rewrite execs_cons, exec_expr, eval_if. rs_flow. rs_expr. rewrite HO. rs_again.
  change M64 with 18446744073709551616 in *. change BUF_BLOCKS with 4. change BLOCK_WORDS with 16.
  assert (tail : forall c, c < M64 -> c * 16 + off < 340282366920938463463374607431768211456) by (intros c; change M64 with 18446744073709551616; lia).
  destruct off as [|off].
  - change (0 =? 0) with true. cbv iota. rs_again. word_tail ctr HO tail LC U.
  - change (N.pos off =? 0) with false. cbv iota. rs_again.
    change (w_diff 18446744073709551616 ctr 4) with ((ctr + (M64 - 4)) mod M64).
    replace ((ctr + (M64 - 4)) mod M64) with ((ctr + 18446744073709551616 - 4) mod 18446744073709551616) by (f_equal; lia).
    assert (LD : (ctr + 18446744073709551616 - 4) mod 18446744073709551616 < 18446744073709551616) by (apply N.mod_lt; discriminate).
    generalize dependent ((ctr + 18446744073709551616 - 4) mod 18446744073709551616). intros ctr' LD. word_tail ctr' HO tail LD U.
Qed.
(** [rng.rs:224-231] *)
Lemma src_set_word_pos : forall ck usz n d r p, In usz pointer_widths -> core_ok (b_core r) ->
  run_rng ck usz n (S (S d)) "ChaCha20Rng::set_word_pos" [rng_val r; VInt U128 p] =
  with_res (rng_set_word_pos (soft n) r p) (fun r => XOk (VUnit, [rng_val r; VInt U128 p])).
Proof.
  intros ck usz n d r p U C. rng_enter.
  unfold rng_set_word_pos. destruct r as [st res idx]. cbn [b_core b_res b_idx] in *.
  pose proof (call_reset ck usz n d U {| b_core := upd (upd st 12 (as_u32 (p / BLOCK_WORDS))) 13 (as_u32 (N.shiftr (p / BLOCK_WORDS) 32)); b_res := res; b_idx := idx |} Usz (p mod BLOCK_WORDS)
    (upd_ok _ _ _ (upd_ok _ _ _ C))) as HR.
  revert HR. generalize (run_rng ck usz n (S d)) as cf. intros cf HR.
  generalize dependent (reset_and_skip (soft n) {| b_core := upd (upd st 12 (as_u32 (p / BLOCK_WORDS))) 13 (as_u32 (N.shiftr (p / BLOCK_WORDS) 32)); b_res := res; b_idx := idx |} (N.to_nat (p mod BLOCK_WORDS))).
  intros m HR. assert (LM : p mod BLOCK_WORDS < 16) by (apply N.mod_lt; discriminate).
  destruct C as [H W]. cbv [rng_val block_val core_val b_core b_res b_idx] in HR |- *. generalize dependent (N.of_nat idx). intros i HR. 
  destr_list st H. cbv [upd] in HR |- *.
  unfold as_u32 in HR. change (p / BLOCK_WORDS) with (w_div p 16) in HR. change (w_div p 16 mod M32) with (w_trunc 4294967296 (w_div p 16)) in HR.
  change (N.shiftr (w_div p 16) 32 mod M32) with (w_trunc 4294967296 (w_shr (w_div p 16) 32)) in HR.
  rs_body. rs_stmt. change (p mod BLOCK_WORDS) with (w_mod p 16) in *.
  generalize dependent (w_mod p 16). intros q LM HR.
  assert (T : forall k, 16 <= k -> w_trunc k q = q) by (intros k Hk; apply N.mod_small; lia).
  destruct U as [<-|[<-|[<-|[]]]].
  all: rs_again; rewrite T by (cbv; discriminate); rs_stmt; rs_stmt; rs_stmt; rs_stmt; rewrite HR.
  all: destruct m as [[st' res' idx']|]; [|reflexivity]; unfold with_res; cbv [b_core b_res b_idx]; generalize (N.of_nat idx'); intros i'; rs_again; rewrite execs_nil; rs_lhs; reflexivity.
Qed.
