(** The text of the ChaCha generators' methods, run: [fill_bytes] and [serialize_state]. *)
From Coq Require Import String Lia.
From Verif Require Import WordLemmas ChaChaProofs RustLemmas RustMeth RustRngText.
From Verif Require Export RustRng3.
Local Open Scope string_scope.
Local Open Scope N_scope.
Local Open Scope list_scope.
Ltac rs_norm t ::=
  eval cbv -[run_fn run_rng loop for_body w_diff w_sum same_list
             add32 sub32 add64 xor32 rotl32 rotr32 w_add w_sub w_mul w_and w_or w_xor w_shl w_shr w_div w_mod w_trunc w_fits le_byte from_le N.pow] in t.
(** Two clauses of the evaluator: a call of a method without arguments, and [&&]. *)
Lemma eval_meth_0 : forall g p cf o e0 m r,
  eval g p cf o (EMeth e0 m []) r =
  if existsb (String.eqb m) mut_meths
  then let! (vs, r) := XOk ([], r) in
       let! vs := xmap (passed r) vs in
       let! (x, p, r) := place g p cf o e0 r in let! v := rd r x p in
       let! (res, new) := place_meth m x p v vs in
       match new with
       | None => XOk (res, r)
       | Some w => let! r := wr r x p w in XOk (res, r)
       end
  else (let! (v, r) := eval g p cf o e0 r in
   let! v0 := deref r v in
   match v0 with
   | VStruct s _ =>
       let! (vs, r) := XOk ([], r) in
       let! self := if is_place r e0 then let! (x, q, _) := place g p cf o e0 r in XOk (VRef x q) else XOk v0 in
       user_call p cf (s ++ "::" ++ m) (self :: reborrow r [] vs) r
   | _ =>
       let! (vs, r) := XOk ([], r) in
       let! vs := xmap (if (m =? "zip")%string then zipped r else passed r) vs in let! u := value_meth g m v0 vs in XOk (u, r)
   end).
Proof. reflexivity. Qed.
Lemma eval_and : forall g p cf o a b r,
  eval g p cf o (EBin "&&" a b) r =
  (let! (v, r) := eval g p cf o a r in let! v := deref r v in
   match v with VBool true => eval g p cf o b r | VBool false => XOk (v, r) | _ => XStuck end).
Proof. reflexivity. Qed.
Lemma same_list_eqb : forall a b, same_list a b = bytes_eqb a b.
Proof. induction a as [|x a IH]; intros [|y b]; cbn [same_list bytes_eqb]; reflexivity. Qed.
Lemma le_bytes8 : forall x, to_le 8 x = [le_byte x 0; le_byte x 1; le_byte x 2; le_byte x 3; le_byte x 4; le_byte x 5; le_byte x 6; le_byte x 7].
Proof.
  intros x. unfold le_byte, w_trunc, w_shr. cbn [to_le N.mul]. rewrite !N.shiftr_div_pow2, !N.div_div by lia. cbn [N.pow]. rewrite N.div_1_r. reflexivity.
Qed.
Lemma le_bytes16 : forall x, to_le 16 x = [le_byte x 0; le_byte x 1; le_byte x 2; le_byte x 3; le_byte x 4; le_byte x 5; le_byte x 6; le_byte x 7;
  le_byte x 8; le_byte x 9; le_byte x 10; le_byte x 11; le_byte x 12; le_byte x 13; le_byte x 14; le_byte x 15].
Proof.
  intros x. unfold le_byte, w_trunc, w_shr. cbn [to_le N.mul]. rewrite !N.shiftr_div_pow2, !N.div_div by lia. cbn [N.pow]. rewrite N.div_1_r. reflexivity.
Qed.
Lemma get_seed_len r : length (b_core r) = 16%nat -> length (get_seed r) = 32%nat.
Proof. destruct r as [st res idx]. cbn [b_core]. intros H. destr_list st H. reflexivity. Qed.
(** [rng.rs:162-165] *)
Lemma src_fill : forall ck usz n d r dest, In usz pointer_widths -> core_ok (b_core r) ->
  run_rng ck usz n (S (S d)) "ChaCha20Rng::try_fill_bytes" [rng_val r; VArr U8 dest] =
  let (l, r') := fill_bytes (soft n) r (length dest) in XOk (VCon "Ok" [VUnit], [rng_val r'; VArr U8 l]).
Proof.
  intros ck usz n d r dest U C. rng_enter.
  pose proof (call_fill ck usz n d U r dest C) as HC. revert HC. generalize (run_rng ck usz n (S d)) as cf. intros cf HC.
  destruct (fill_bytes (soft n) r (length dest)) as [l r']. destruct r as [st res idx], r' as [st' res' idx']. opened.
  rs_body. rs_stmt. rewrite HC. rs_again. rewrite execs_nil. rs_lhs. reflexivity.
Qed.
Ltac meth_0 H :=
  rewrite execs_cons, exec_let, eval_meth_0;
  match goal with |- context [existsb ?f mut_meths] => change (existsb f mut_meths) with false end; cbv iota; rs_flow;
  rs_expr; rewrite H; rs_again.
(** [rng.rs:297-313] *)
Lemma src_serialize : forall ck usz n d r, In usz pointer_widths -> core_ok (b_core r) -> (b_idx r <= 64)%nat ->
  run_rng ck usz n (S (S (S d))) "ChaCha20Rng::serialize_state" [rng_val r] =
  match serialize_state ck r with Ok l => XOk (VArr U8 l, [rng_val r]) | Panic => XPanic end.
Proof.
  intros ck usz n d r U C I. rng_enter. pose proof (get_seed_len r (proj1 C)) as L.
  pose proof (src_get_seed ck usz n (S d) r C) as H1. pose proof (src_get_stream ck usz n (S d) r C) as H2. pose proof (src_get_word_pos ck usz n d r U C I) as H3.
  revert H1 H2 H3. generalize (run_rng ck usz n (S (S d))) as cf. intros cf H1 H2 H3.
  unfold serialize_state. cbv zeta. rewrite L. rewrite le_bytes8, le_bytes16. cbn [length skipn firstn repeat].
  rewrite <- same_list_eqb.
  generalize dependent (get_seed r). intros seed L H1. generalize dependent (get_stream r). intros s H2. generalize dependent (get_word_pos r). intros wp H3.
  cbv [rng_val] in *. generalize dependent (block_val r). intros b H1 H2 H3. clear C I. destr_list seed L.
  rs_body. rs_stmt. rewrite H1. rs_again. meth_0 H2. meth_0 H3. do 6 rs_stmt.
  rewrite execs_cons. destruct ck.
  - match goal with |- context [exec ?g ?p ?c ?o ?s ?r] => rs_eval (exec g p c o s r) end. 
    match goal with |- context [same_list ?a ?c] => destruct (same_list a c) end; [|reflexivity].
    rs_again. rewrite execs_nil. rs_lhs. reflexivity.
  - match goal with |- context [exec ?g ?p ?c ?o ?s ?r] => rs_eval (exec g p c o s r) end. rs_again. rewrite execs_nil. rs_lhs. reflexivity.
Qed.
