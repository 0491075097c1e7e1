(** The text of [gen_ks_block] in [hc-256/src/lib.rs:213-217], run. *)
From Coq Require Import String Lia.
From Verif Require Import WordLemmas RustLemmas RustMeth RustRc4 Hc256 Hc256Proofs RustHc256 RustHc256b.
Local Open Scope string_scope.
Local Open Scope N_scope.
Local Open Scope list_scope.
Ltac rs_norm t ::=
  eval cbv -[run_fn loop for_body inb geti updi in_range part splice N.of_nat N.to_nat w_ltb w_sum w_diff w_prod List.repeat
             add32 sub32 add64 xor32 rotl32 rotr32 w_add w_sub w_mul w_and w_or w_xor w_shl w_shr w_div w_mod w_trunc w_fits le_byte from_le N.pow] in t.
Lemma src_hc_block : forall ck usz d s b, In usz pointer_widths -> length (h_p s) = 1024%nat -> length (h_q s) = 1024%nat -> h_idx s < 2048 -> length b = 4%nat ->
  run_fn (hc256_g ck usz) hc256_prog (S (S (S d))) "Backend::gen_ks_block" [VStruct "Backend" [("0", hc_val s)]; VArr U8 b] =
  match gen_word ck (2 ^ usz) s with Ok (w, s') => XOk (VUnit, [VStruct "Backend" [("0", hc_val s')]; VArr U8 (to_le 4 w)]) | Panic => XPanic end.
Proof.
  intros ck usz d [p q i] b U Wp Wq Wi Lb. pose proof (src_gen_word ck usz d _ U Wp Wq Wi) as HG. rs_enter. revert HG.
  generalize (run_fn (hc256_g ck usz) hc256_prog (S (S d))) as cf. intros cf HG.
  unfold hc_val in *. cbn [h_p h_q h_idx] in *. rs_body. rewrite execs_cons, exec_expr.
  rewrite eval_meth_if by (intros; discriminate). rs_flow. rs_again. rewrite HG. destruct (gen_word ck (2 ^ usz) _) as [[w [p' q' i']]|]; [|reflexivity].
  rs_again. destr_list b Lb. rewrite ?execs_nil. rs_lhs. rewrite le_bytes4. reflexivity.
Qed.
