(** The text of [rc4/src/lib.rs:51-77], run: key scheduling. *)
From Coq Require Import String Lia.
From Verif Require Import WordLemmas RustLemmas RustMeth RustRc4 Rc4Proofs.
Local Open Scope string_scope.
Local Open Scope N_scope.
Local Open Scope list_scope.
Ltac rs_norm t ::=
  eval cbv -[run_fn loop for_body inb geti updi in_range part splice numbers N.of_nat N.to_nat w_ltb w_sum w_diff w_prod List.map List.length List.nth Nat.modulo List.seq
             add32 sub32 add64 xor32 rotl32 rotr32 w_add w_sub w_mul w_and w_or w_xor w_shl w_shr w_div w_mod w_trunc w_fits le_byte from_le N.pow] in t.
Lemma cycled a (key : list N) : (0 < length key)%nat ->
  map (fun x => VTup [fst x; nth (snd x mod length (map (VInt U8) key)) (map (VInt U8) key) VUnit]) (combine (map (VInt Usz) (map N.of_nat (seq 0 a))) (seq 0 (length (map (VInt Usz) (map N.of_nat (seq 0 a)))))) =
  map (fun j => VTup [VInt Usz (N.of_nat j); VInt U8 (geti key (N.of_nat (j mod length key)))]) (seq 0 a).
Proof.
  intros H. rewrite !map_length, seq_length. rewrite map_map. generalize 0%nat as i.
  induction a as [|a IH]; intros i; [reflexivity|]. cbn [seq map combine]. rewrite IH. f_equal. cbn [fst snd]. f_equal. f_equal. f_equal.
  unfold geti, get. rewrite Nat2N.id. rewrite (nth_indep _ VUnit (VInt U8 0)) by (rewrite map_length; apply Nat.mod_upper_bound; lia). apply map_nth.
Qed.
Lemma src_rc4_new : forall ck usz d key, In usz pointer_widths -> 
  run_fn (rc4_g ck usz) rc4_prog (S d) "Rc4::new_from_slice" [VArr U8 key] =
  match new_from_slice key with
  | Ok (Some s) => XOk (VCon "Ok" [rc4_val s], [VArr U8 key])
  | Ok None => XOk (VCon "Err" [VUnit], [VArr U8 key])
  | Panic => XPanic
  end.
Proof.
  intros ck usz d key U. rs_enter. rs_body.
  rewrite execs_cons, exec_expr, eval_if, eval_or.
  rs_flow. rs_again.
  assert (C : ((length key <? 1) || (256 <? length key))%nat = (w_ltb (N.of_nat (length key)) 1 || w_ltb 256 (N.of_nat (length key)))).
  { unfold w_ltb. f_equal.
    - destruct (Nat.ltb_spec (length key) 1), (N.ltb_spec (N.of_nat (length key)) 1); reflexivity || lia.
    - destruct (Nat.ltb_spec 256 (length key)), (N.ltb_spec 256 (N.of_nat (length key))); reflexivity || lia. }
  unfold new_from_slice. rewrite C.
  destruct (w_ltb (N.of_nat (length key)) 1) eqn:C1; [cbn [orb]; rs_lhs; reflexivity|].
  destruct (w_ltb 256 (N.of_nat (length key))) eqn:C2; [cbn [orb]; rs_lhs; reflexivity|].
  cbn [orb]. rs_flow.
  assert (Hk : (0 < length key)%nat) by (unfold w_ltb in C1; apply N.ltb_ge in C1; lia).
  rewrite execs_cons, exec_let. rs_flow.
  match goal with |- context [eval ?g ?p ?c ?o ?e ?r] =>
    assert (E : eval g p c o e r = XOk (VArr U8 (map N.of_nat (seq 0 256)), r)) by (vm_compute; reflexivity); rewrite E; clear E end.
  rs_flow.
  match goal with |- context [bind_pat ?a ?b ?c] => rs_eval (bind_pat a b c) end. rs_flow.
  rs_stmt. rs_stmt. rs_stmt. rewrite execs_cons, exec_expr, eval_for_each. rs_flow. rs_expr.
  match goal with |- context [VIter ?l] =>
    replace l with (map (fun j => VTup [VInt Usz (N.of_nat j); VInt U8 (geti key (N.of_nat (j mod length key)))]) (seq 0 256)) by (symmetry; exact (cycled 256 key Hk)) end.
  match goal with |- context [items (VIter ?l)] => change (items (VIter l)) with (@XOk (list val) l) end. rs_flow.
  match goal with |- context [loop _ _ ?r] =>
    change r with ((fun q : list N * N => [("j", VInt U8 (snd q)); ("key_iter", VCyc (map (VInt U8) key)); ("i_iter", VRng Usz 0 256); ("state", VArr U8 (fst q)); ("key", VArr U8 key)]) (map N.of_nat (seq 0 256), 0)) end.
  rewrite (flat_for _ _ _ _ (ksa_step key) (fun q => length (fst q) = 256%nat)).
  - replace (forallb (fun i : nat => N.of_nat i <? 256) (seq 0 256)) with true by (symmetry; vm_compute; reflexivity).
    unfold assert_. cbn [bind].
    destruct (for_ (seq 0 256) (ksa_step key) (map N.of_nat (seq 0 256), 0)) as [[st j]|]; [|reflexivity]. cbn [fst snd bind]. rs_flow. rewrite execs_nil. rs_flow. 
    rs_expr. rs_lhs. reflexivity.
  - reflexivity.
  - intros j [st0 j0] [st1 j1] H _. unfold ksa_step, swap. rewrite !idx_inb. cbn [fst] in *.
    repeat (rewrite ?idx_inb, ?set_idx_inb; match goal with |- context [inb ?i ?l] => destruct (inb i l); cbn [bind]; [|discriminate] end).
    intros E. injection E as <- <-. unfold updi. rewrite !upd_len. exact H.
  - intros j [st0 j0] H I. cbn [fst snd] in *. apply in_seq in I.
    assert (IN : forall n, n < 256 -> inb n st0 = true) by (intros n L; unfold inb; rewrite H; apply N.ltb_lt; exact L).
    assert (IK : inb (N.of_nat (j mod length key)) key = true) by (unfold inb; apply N.ltb_lt; pose proof (Nat.mod_upper_bound j (length key)); lia).
    assert (S8 : forall a b, w_sum 256 a b < 256) by (intros; apply w_sum_lt; reflexivity).
    assert (Ij : N.of_nat j < 256) by lia.
    unfold ksa_step, swap. change add8 with (w_sum 256).
    repeat (rewrite ?idx_inb, ?set_idx_inb, ?inb_updi, ?IK; rewrite ?IN by auto; cbn [bind]). cbn [fst snd].
    unfold for_body.
    generalize dependent (N.of_nat j). intros i Ii. generalize (geti key (N.of_nat (j mod length key))). intros k.
    destruct U as [<-|[<-|[<-|[]]]].
    all: match goal with |- flat ?m = _ => rs_eval m end; cbn [flat]; rewrite ?IN by auto; cbn [flat].
    all: rs_lhs; reflexivity.
Qed.
