(** The text of [gen_word] in [hc-256/src/lib.rs:163-188], run. *)
From Coq Require Import String Lia.
From Verif Require Import WordLemmas RustLemmas RustMeth RustRc4 Hc256 Hc256Proofs RustHc256.
Local Open Scope string_scope.
Local Open Scope N_scope.
Local Open Scope list_scope.
Lemma w_diff_sub m a b : b < m -> w_diff m a b = wsub m a b.
Proof. intros H. unfold w_diff, wsub. rewrite (N.mod_small b) by exact H. f_equal. lia. Qed.
Ltac model_checks := repeat (rewrite ?idx_inb, ?set_idx_inb, ?inb_updi; match goal with IN : forall n, n < 1024 -> inb n _ = true |- _ => rewrite IN by assumption end; cbn [bind]).
Ltac src_checks := repeat (rewrite ?inb_updi; match goal with IN : forall n, n < 1024 -> inb n ?l = true |- context [inb _ ?l] => rewrite IN by assumption end; rs_flow).
Ltac offset k a D B :=
    match goal with |- context [N.land (wsub ?m ?j k) TABLE_MASK] =>
      assert (B : N.land (wsub m j k) TABLE_MASK < 1024) by apply land1023_lt;
      assert (D : w_and (w_diff m j k) 1023 = N.land (wsub m j k) TABLE_MASK) by (rewrite w_diff_sub by reflexivity; reflexivity);
      revert D B; generalize (N.land (wsub m j k) TABLE_MASK); intros a D B end.
Ltac branch HG HH L D10 D3 D1023 D12 :=
  model_checks; rewrite eval_blk; rs_flow; rewrite execs_cons, exec_expr, eval_asn, eval_meth_1 by (reflexivity || discriminate);
  rs_again; rewrite ?D10; src_checks; rs_again; rewrite ?D3, ?D1023; rewrite HG by exact L;
  match goal with |- context [g_ ?t ?x ?y] => destruct (g_ t x y) as [?g|]; cbn [bind]; [|src_checks; reflexivity] end;
  model_checks; src_checks; rs_again; src_checks; rs_again; rewrite execs_nil; rs_flow; rewrite eval_bin by reflexivity;
  rs_again; rewrite ?D12; rewrite HH by exact L;
  match goal with |- context [h_ ?c ?t ?x] => destruct (h_ c t x) as [?h|]; cbn [bind]; [|src_checks; reflexivity] end;
  model_checks; src_checks; rs_again; src_checks; rs_again; rs_lhs; reflexivity.
Lemma src_gen_word : forall ck usz d s, In usz pointer_widths -> length (h_p s) = 1024%nat -> length (h_q s) = 1024%nat -> h_idx s < 2048 ->
  run_fn (hc256_g ck usz) hc256_prog (S (S d)) "Hc256Core::gen_word" [hc_val s] =
  match gen_word ck (2 ^ usz) s with Ok (w, s') => XOk (VInt U32 w, [hc_val s']) | Panic => XPanic end.
Proof.
  intros ck usz d [p q i] U Lp Lq Li. cbn [h_p h_q h_idx] in *.
  rs_enter. 
  pose proof (fun p q i x y H => src_g1 ck usz d {| h_p := p; h_q := q; h_idx := i |} x y U H) as HG1.
  pose proof (fun p q i x y H => src_g2 ck usz d {| h_p := p; h_q := q; h_idx := i |} x y U H) as HG2.
  pose proof (fun p q i x H => src_h1 ck usz d {| h_p := p; h_q := q; h_idx := i |} x U H) as HH1.
  pose proof (fun p q i x H => src_h2 ck usz d {| h_p := p; h_q := q; h_idx := i |} x U H) as HH2.
  unfold hc_val in *. unfold Hc256.g1, Hc256.g2, Hc256.h1, Hc256.h2 in *. cbn [h_p h_q h_idx] in *. 
  revert HG1 HG2 HH1 HH2. generalize (run_fn (hc256_g ck usz) hc256_prog (S d)) as cf. intros cf HG1 HG2 HH1 HH2. 
  rs_body.
  assert (A : w_add ck 4294967296 i 1 = Ok (i + 1)) by (apply add_ck_ok; lia).
  unfold gen_word. cbv zeta. change (add_ck ck M32) with (w_add ck 4294967296). cbn [h_p h_q h_idx]. rewrite A. unfold Hc256.g1, Hc256.g2, Hc256.h1, Hc256.h2. cbn [bind h_p h_q h_idx].
  assert (T : forall m, 2048 <= m -> w_trunc m i = i) by (intros m Hm; apply N.mod_small; lia).
  change (N.land (i + 1) (2048 - 1)) with (w_and (i + 1) 2047). change (N.land i TABLE_MASK) with (w_and i 1023). change (i <? 1024) with (w_ltb i 1024).
  revert A. generalize (i + 1). intros n1 A.
  assert (Hj : w_and i 1023 < 1024) by apply land1023_lt.
  assert (INp := fun n => inb_1024 p n Lp). assert (INq := fun n => inb_1024 q n Lq).
  destruct U as [<-|[<-|[<-|[]]]]; [change (2 ^ 16) with 65536|change (2 ^ 32) with 4294967296|change (2 ^ 64) with 18446744073709551616].
  all: rs_stmt; rs_stmt; rs_stmt; rewrite A; rs_flow; rewrite ?T by discriminate; rewrite execs_nil; rs_flow.
  all: rewrite eval_if; rs_flow; rs_expr; revert Hj; generalize (w_and i 1023) (w_and n1 2047); intros j nx Hj.
  all: offset 10 a10 D10 B10; offset 3 a3 D3 B3; offset 1023 a1023 D1023 B1023; offset 12 a12 D12 B12.
  all: destruct (w_ltb i 1024); [branch HG1 HH1 Lq D10 D3 D1023 D12|branch HG2 HH2 Lp D10 D3 D1023 D12].
Qed.
