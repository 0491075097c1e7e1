(** The text of the RC4 crate, run: it computes the functions of the model. *)
From Coq Require Import String Lia.
From Verif Require Import WordLemmas RustLemmas RustMeth.
From Verif Require Export Rc4.
Local Open Scope string_scope.
Local Open Scope N_scope.
Local Open Scope list_scope.

Ltac rs_norm t ::=
  eval cbv -[run_fn loop for_body inb geti updi in_range part splice numbers N.of_nat N.to_nat w_ltb w_sum w_diff w_prod
             add32 sub32 add64 xor32 rotl32 rotr32 w_add w_sub w_mul w_and w_or w_xor w_shl w_shr w_div w_mod w_trunc w_fits le_byte from_le N.pow] in t.

Lemma idx_inb l i : idx l i = if inb i l then Ok (geti l i) else Panic.
Proof.
  unfold idx, inb, geti, get. destruct (N.ltb_spec i (N.of_nat (length l))) as [H|H].
  - assert (H' : (N.to_nat i < length l)%nat) by lia. rewrite (nth_error_nth' l 0 H'). reflexivity.
  - assert (H' : (length l <= N.to_nat i)%nat) by lia. apply nth_error_None in H'. rewrite H'. reflexivity.
Qed.
Lemma set_idx_inb l i v : set_idx l i v = if inb i l then Ok (updi l i v) else Panic.
Proof. reflexivity. Qed.

Definition rc4_val (s : rc4) : val := VStruct "Rc4" [("state", VArr U8 (k_state s)); ("i", VInt U8 (k_i s)); ("j", VInt U8 (k_j s))].
(** [lib.rs:27-29], [:31-33] *)
Lemma src_s_i : forall ck usz d s, In usz pointer_widths ->
  run_fn (rc4_g ck usz) rc4_prog (S d) "Rc4::s_i" [rc4_val s] = match s_i s with Ok n => XOk (VInt U8 n, [rc4_val s]) | Panic => XPanic end.
Proof.
  intros ck usz d [st i j] U. unfold s_i. rewrite idx_inb. unfold rc4_val. cbn [k_state k_i k_j]. rs_enter. rs_body. 
  destruct U as [<-|[<-|[<-|[]]]].
  all: rs_lhs; destruct (inb i st); reflexivity.
Qed.
Lemma src_s_j : forall ck usz d s, In usz pointer_widths ->
  run_fn (rc4_g ck usz) rc4_prog (S d) "Rc4::s_j" [rc4_val s] = match s_j s with Ok n => XOk (VInt U8 n, [rc4_val s]) | Panic => XPanic end.
Proof.
  intros ck usz d [st i j] U. unfold s_j. rewrite idx_inb. unfold rc4_val. cbn [k_state k_i k_j]. rs_enter. rs_body. 
  destruct U as [<-|[<-|[<-|[]]]].
  all: rs_lhs; destruct (inb j st); reflexivity.
Qed.

Lemma w_sum_lt m a b : 0 < m -> w_sum m a b < m.
Proof. intros H. apply N.mod_lt. lia. Qed.
(** [lib.rs:35-44] *)
Lemma src_prga : forall ck usz d s, In usz pointer_widths -> length (k_state s) = 256%nat -> bytes (k_state s) -> k_j s < 256 ->
  run_fn (rc4_g ck usz) rc4_prog (S (S d)) "Rc4::prga" [rc4_val s] =
  match prga s with Ok (o, s') => XOk (VInt U8 o, [rc4_val s']) | Panic => XPanic end.
Proof.
  intros ck usz d [st i j] U Hl Hb Hj. cbn [k_state k_j] in *.
  assert (HI : forall ck usz d st i j, In usz pointer_widths -> inb i st = true ->
     run_fn (rc4_g ck usz) rc4_prog (S d) "Rc4::s_i" [VStruct "Rc4" [("state", VArr U8 st); ("i", VInt U8 i); ("j", VInt U8 j)]] = 
     XOk (VInt U8 (geti st i), [VStruct "Rc4" [("state", VArr U8 st); ("i", VInt U8 i); ("j", VInt U8 j)]])).
  { intros ck0 usz0 d0 st0 i0 j0 U0 H0. pose proof (src_s_i ck0 usz0 d0 {| k_state := st0; k_i := i0; k_j := j0 |} U0) as E. unfold s_i in E. rewrite idx_inb in E. cbn [k_state k_i] in E. rewrite H0 in E. exact E. }
  assert (HJ : forall ck usz d st i j, In usz pointer_widths -> inb j st = true ->
     run_fn (rc4_g ck usz) rc4_prog (S d) "Rc4::s_j" [VStruct "Rc4" [("state", VArr U8 st); ("i", VInt U8 i); ("j", VInt U8 j)]] = 
     XOk (VInt U8 (geti st j), [VStruct "Rc4" [("state", VArr U8 st); ("i", VInt U8 i); ("j", VInt U8 j)]])).
  { intros ck0 usz0 d0 st0 i0 j0 U0 H0. pose proof (src_s_j ck0 usz0 d0 {| k_state := st0; k_i := i0; k_j := j0 |} U0) as E. unfold s_j in E. rewrite idx_inb in E. cbn [k_state k_j] in E. rewrite H0 in E. exact E. }
  pose proof (fun st i j => HI ck usz d st i j U) as HI'. pose proof (fun st i j => HJ ck usz d st i j U) as HJ'. clear HI HJ. rename HI' into HI. rename HJ' into HJ.
  assert (IN : forall l n, length l = 256%nat -> n < 256 -> inb n l = true) by (intros l n L H; unfold inb; rewrite L; apply N.ltb_lt; exact H).
  assert (S8 : forall a b, w_sum 256 a b < 256) by (intros; apply w_sum_lt; reflexivity).
  unfold prga. cbv zeta. cbn [k_state k_i k_j]. unfold s_i, s_j, swap. cbn [k_state k_i k_j].
  change add8 with (w_sum 256). rewrite !idx_inb. cbn [k_state k_i k_j bind].
  repeat (rewrite ?idx_inb, ?set_idx_inb, ?inb_updi; rewrite (IN st) by auto; cbn [bind]).
  unfold rc4_val. cbn [k_state k_i k_j].
  rs_enter. revert HI HJ. generalize (run_fn (rc4_g ck usz) rc4_prog (S d)) as cf. intros cf HI HJ. 
  rs_body.  rs_stmt.
  rewrite execs_cons, exec_expr, eval_asn, eval_meth_1 by (reflexivity || discriminate).
  rs_flow. rs_again. rewrite HI by auto. rs_again. 
  rewrite execs_cons, exec_expr. destruct U as [<-|[<-|[<-|[]]]].
  all: match goal with |- context [eval ?g ?p ?c ?o ?e ?r] => rs_eval (eval g p c o e r) end.
  all: rewrite !(IN st) by auto.
  all: rs_flow.
  all: rewrite execs_cons, exec_let, eval_meth_1 by (reflexivity || discriminate).
  all: rs_flow; rs_again.
  all: rewrite HI by (rewrite !inb_updi; auto).
  all: rs_again.
  all: rewrite HJ by (rewrite !inb_updi; auto).
  all: rs_again.
  all: rewrite execs_nil; rs_flow.
  all: match goal with |- context [eval ?g ?p ?c ?o ?e ?r] => rs_eval (eval g p c o e r) end.
  all: rewrite !inb_updi, !(IN st) by auto.
  all: rs_lhs; reflexivity.
Qed.
