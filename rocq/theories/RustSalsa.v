(** The text of the Salsa crate's portable code, run: it computes the functions of the model. *)
From Coq Require Import String Lia.
From Verif Require Import WordLemmas RustLemmas.
From Verif Require Export Salsa.
Local Open Scope string_scope.
Local Open Scope N_scope.
Local Open Scope list_scope.

Ltac rs_norm t ::=
  eval cbv -[run_fn loop for_body
             add32 sub32 add64 xor32 rotl32 rotr32 w_add w_sub w_mul w_and w_or w_xor w_shl w_shr w_div w_mod w_trunc w_fits le_byte from_le N.pow
             s_quarter_round s_double_round s_run_rounds iter_n salsa_get_pos salsa_set_pos] in t.
Ltac rs_norm_all t ::=
  eval cbv -[run_fn
             add32 sub32 add64 xor32 rotl32 rotr32 w_add w_sub w_mul w_and w_or w_xor w_shl w_shr w_div w_mod w_trunc w_fits le_byte from_le N.pow
             s_quarter_round s_double_round s_run_rounds iter_n salsa_get_pos salsa_set_pos] in t.

Lemma s_qr_len a b c d st : length (s_quarter_round a b c d st) = length st.
Proof. cbv beta delta [s_quarter_round]. do 4 (etransitivity; [apply upd_len|]). reflexivity. Qed.
Lemma s_dr_len st : length (s_double_round st) = length st.
Proof. unfold s_double_round. rewrite !s_qr_len. reflexivity. Qed.
Lemma s_za_len a b : length (s_zip_add a b) = length a.
Proof. revert b. induction a as [|x a IH]; intros [|y b]; cbn; [reflexivity..|]. rewrite IH. reflexivity. Qed.
Lemma s_iter_len n st : length st = 16%nat -> length (iter_n n s_double_round st) = 16%nat.
Proof. intros H. apply (iter_inv _ (fun l => length l = 16%nat)); [|exact H]. intros a Ha. rewrite s_dr_len. exact Ha. Qed.
Lemma s_rr_len n st : length st = 16%nat -> length (s_run_rounds n st) = 16%nat.
Proof. intros H. unfold s_run_rounds. rewrite s_za_len. apply s_iter_len, H. Qed.

(** The index quadruples of a double round. *)
Definition s_quads : list (N * N * N * N) :=
  [(0, 4, 8, 12); (5, 9, 13, 1); (10, 14, 2, 6); (15, 3, 7, 11); (0, 1, 2, 3); (5, 6, 7, 4); (10, 11, 8, 9); (15, 12, 13, 14)].
(** [soft.rs:35-46] *)
Lemma src_s_quarter_round : forall ck usz n d a0 a1 a2 a3 st, length st = 16%nat -> In (a0, a1, a2, a3) s_quads ->
  run_fn (salsa_g ck usz n) salsa_prog (S d) "quarter_round" [VInt Any a0; VInt Any a1; VInt Any a2; VInt Any a3; VArr U32 st] =
  XOk (VUnit, [VInt Usz a0; VInt Usz a1; VInt Usz a2; VInt Usz a3; VArr U32 (s_quarter_round (N.to_nat a0) (N.to_nat a1) (N.to_nat a2) (N.to_nat a3) st)]).
Proof.
  intros ck usz n d a0 a1 a2 a3 st H I.
  rs_enter. destr_list st H.
  cbn [In s_quads] in I.
  repeat (destruct I as [I|I]; [injection I as <- <- <- <-|]); [..|contradiction I].
  all: cbv -[run_fn add32 sub32 add64 xor32 rotl32 rotr32]; reflexivity.
Qed.
(** [soft.rs:49-70] *)
Lemma src_s_run_rounds : forall ck usz n d st, length st = 16%nat ->
  run_fn (salsa_g ck usz n) salsa_prog (S (S d)) "run_rounds" [VArr U32 st] =
  XOk (VArr U32 (s_run_rounds (N.to_nat n) st), [VArr U32 st]).
Proof.
  intros ck usz n d st H.
  rs_enter. pose proof (src_s_quarter_round ck usz n d) as HQ. revert HQ.
  generalize (run_fn (salsa_g ck usz n) salsa_prog (S d)) as cf. intros cf HQ.
  rs_body. rs_stmt. rs_for.
  rewrite (flat_loop _ _ _ (fun l => [("res", VArr U32 l); ("state", VArr U32 st)]) (fun _ => s_double_round) (fun l => length l = 16%nat)).
  2:{ exact H. }
  2:{ intros w a Ha _. rewrite s_dr_len. exact Ha. }
  2:{ intros w a Ha _. unfold for_body. cbn [bind_pat xbind]. rewrite eval_blk. rs_flow.
      do 8 (rs_stmt; rewrite HQ; [rs_again|rewrite ?s_qr_len; exact Ha|cbn [In s_quads]; tauto]).
      rewrite execs_nil. rs_lhs. cbv [s_double_round]. reflexivity. }
  rewrite fold_iter, map_length, numbers_length, N.sub_0_r. rs_flow.
  pose proof (s_iter_len (N.to_nat n) st H) as H2.
  unfold s_run_rounds. generalize dependent (iter_n (N.to_nat n) s_double_round st). intros res H2.
  destr_list st H. destr_list res H2.
  rs_stmt_all. rewrite execs_nil. rs_lhs_all. reflexivity.
Qed.

Definition s_core_val (st : list N) : val := VStruct "SalsaCore" [("state", VArr U32 st); ("rounds", VUnit)].
Definition s_backend_val (st : list N) : val := VStruct "Backend" [("0", s_core_val st)].
(** [lib.rs:135-137] *)
Lemma s_pos_bound st : words st -> salsa_get_pos st < M64.
Proof.
  intros W. pose proof (Forall_get W32 st 8 W eq_refl) as W8. pose proof (Forall_get W32 st 9 W eq_refl) as W9.
  unfold salsa_get_pos, W32 in *. rewrite N.shiftl_mul_pow2. change (2 ^ 32) with M32. lia.
Qed.
Lemma src_s_get_pos : forall ck usz n d st, length st = 16%nat -> words st ->
  run_fn (salsa_g ck usz n) salsa_prog (S d) "SalsaCore::get_block_pos" [s_core_val st] =
  XOk (VInt U64 (salsa_get_pos st), [s_core_val st]).
Proof.
  intros ck usz n d st H W. pose proof (s_pos_bound st W) as Hb.
  assert (W3 : get st 9 < M32) by (apply (Forall_get W32); [exact W|reflexivity]).
  unfold salsa_get_pos in *. destr_list st H. change (get _ 9) with x8 in *. change (get _ 8) with x7 in *.
  rs_enter. rs_body. rewrite execs_nil. rs_flow.
  match goal with |- context [eval ?g ?p ?c ?o ?e ?r] => rs_eval (eval g p c o e r) end.
  rewrite (shl_small _ _ _ M32 W3) by reflexivity.
  unfold w_add. rewrite add_ck_ok by exact Hb. rs_flow. 
  generalize dependent (x7 + N.shiftl x8 32). intros p Hb. rs_lhs. reflexivity.
Qed.
(** [lib.rs:140-143] *)
Lemma src_s_set_pos : forall ck usz n d st pos, length st = 16%nat ->
  run_fn (salsa_g ck usz n) salsa_prog (S d) "SalsaCore::set_block_pos" [s_core_val st; VInt U64 pos] =
  XOk (VUnit, [s_core_val (salsa_set_pos st pos); VInt U64 pos]).
Proof.
  intros ck usz n d st pos H. unfold salsa_set_pos. destr_list st H. rs_enter. rs_lhs. reflexivity.
Qed.
(** [lib.rs:122-125] *)
Lemma src_s_remaining : forall ck usz n d st, In usz pointer_widths -> length st = 16%nat -> words st ->
  run_fn (salsa_g ck usz n) salsa_prog (S (S d)) "SalsaCore::remaining_blocks" [s_core_val st] =
  XOk (opt_val (salsa_remaining usz st), [s_core_val st]).
Proof.
  intros ck usz n d st U H W. pose proof (s_pos_bound st W) as Hb.
  rs_enter. pose proof (src_s_get_pos ck usz n d st H W) as HG. revert HG. unfold salsa_remaining.
  generalize (run_fn (salsa_g ck usz n) salsa_prog (S d)) as cf. intros cf HG.
  generalize dependent (salsa_get_pos st). intros p Hb HG.
  rs_body. unfold s_core_val in *. rewrite execs_cons, exec_let, eval_bin by reflexivity. rs_flow. rs_expr. rs_again. rewrite HG. rs_again.
  change 18446744073709551615 with (M64 - 1). rewrite (sub_max ck M64 p Hb).
  generalize (M64 - 1 - p). intros x. rs_again. rewrite execs_nil.
  destruct U as [<-|[<-|[<-|[]]]]; rs_lhs; unfold w_fits; change (2 ^ 16) with 65536; change (2 ^ 32) with M32; change (2 ^ 64) with M64; destruct (x <? _); reflexivity.
Qed.
(** [soft.rs:22-30] *)
Lemma src_s_gen_ks_block : forall ck usz n d st block, length st = 16%nat -> words st -> length block = 64%nat ->
  run_fn (salsa_g ck usz n) salsa_prog (S (S (S d))) "Backend::gen_ks_block" [s_backend_val st; VArr U8 block] =
  match salsa_gen_ks_block ck (N.to_nat n) st with
  | Ok (ks, st') => XOk (VUnit, [s_backend_val st'; VArr U8 ks])
  | Panic => XPanic
  end.
Proof.
  intros ck usz n d st block H W Hb.
  rs_enter. pose proof (src_s_run_rounds ck usz n d st H) as HR.
  pose proof (src_s_get_pos ck usz n (S d) st H W) as HG.
  pose proof (fun pos => src_s_set_pos ck usz n (S d) st pos H) as HS.
  revert HR HG HS.
  generalize (run_fn (salsa_g ck usz n) salsa_prog (S (S d))) as cf. intros cf HR HG HS.
  unfold s_backend_val, s_core_val in *.
  rs_body. rs_stmt. rewrite HR. clear HR.
  unfold salsa_gen_ks_block.
  pose proof (s_rr_len (N.to_nat n) st H) as Hl.
  generalize dependent (s_run_rounds (N.to_nat n) st). intros res Hl. rs_again.
  generalize dependent (salsa_get_pos st). intros pos HG.
  rewrite execs_cons, exec_expr, eval_meth1 by reflexivity. rs_flow. rs_expr.
  match goal with |- context [deref ?r ?v] => rs_eval (deref r v) end. rs_flow.
  rewrite eval_bin by reflexivity. rs_flow. rs_expr. rewrite HG. rs_again.
  change (w_add ck 18446744073709551616 pos 1) with (add_ck ck M64 pos 1).
  destruct (add_ck ck M64 pos 1) as [q|]; [|rewrite flat_pan; reflexivity].
  cbn [bind]. rs_again. rewrite HS. clear HG HS.
  assert (Hq : length (salsa_set_pos st q) = 16%nat) by (unfold salsa_set_pos; rewrite !upd_len; exact H).
  generalize dependent (salsa_set_pos st q). intros st' Hq. rs_again.
  destr_list res Hl. destr_list block Hb. clear.
  rewrite execs_nil. rs_lhs_all.
  unfold bytes_of_words; cbn [flat_map app]; rewrite !le_bytes4; reflexivity.
Qed.
(** [lib.rs:89-117] *)
Lemma src_s_new : forall ck usz n d key iv, In usz pointer_widths -> length key = 32%nat -> length iv = 8%nat ->
  run_fn (salsa_g ck usz n) salsa_prog (S d) "SalsaCore::new" [VArr U8 key; VArr U8 iv] =
  XOk (s_core_val (salsa_new key iv), [VArr U8 key; VArr U8 iv]).
Proof.
  intros ck usz n d key iv U H I. rs_enter.
  destr_list key H. destr_list iv I. destruct U as [<-|[<-|[<-|[]]]].
  all: cbv -[run_fn from_le]; reflexivity.
Qed.

(** [xsalsa.rs:94-96], the inner function. *)
Lemma src_to_u32 : forall ck usz n d a b c e,
  run_fn (salsa_g ck usz n) salsa_prog (S d) "to_u32" [VArr U8 [a; b; c; e]] = XOk (VInt U32 (from_le [a; b; c; e]), [VArr U8 [a; b; c; e]]).
Proof. intros. rs_enter. rs_lhs. reflexivity. Qed.
(** [xsalsa.rs:92-139] *)
Lemma src_hsalsa : forall ck usz n d key input, length key = 32%nat -> length input = 16%nat ->
  run_fn (salsa_g ck usz n) salsa_prog (S (S d)) "hsalsa" [VArr U8 key; VArr U8 input] =
  XOk (VArr U8 (hsalsa (N.to_nat n) key input), [VArr U8 key; VArr U8 input]).
Proof.
  intros ck usz n d key input Hk Hi.
  rs_enter. pose proof (src_s_quarter_round ck usz n d) as HQ. pose proof (src_to_u32 ck usz n d) as HT. revert HQ HT.
  generalize (run_fn (salsa_g ck usz n) salsa_prog (S d)) as cf. intros cf HQ HT.
  unfold hsalsa.
  destr_list key Hk. destr_list input Hi.
  match goal with |- context [iter_n _ _ ?s] => let u := eval cbv -[from_le] in s in change s with u end.
  rs_body. 
  rs_stmt. rs_stmt. rs_stmt.
  rs_stmt. do 4 (rewrite flat_loop_cons; rs_again; rewrite HT; rs_again). rewrite flat_loop_nil. rs_again.
  rs_stmt.
  rs_stmt. do 4 (rewrite flat_loop_cons; rs_again; rewrite HT; rs_again). rewrite flat_loop_nil. rs_again.
  rs_stmt.
  rs_stmt. do 4 (rewrite flat_loop_cons; rs_again; rewrite HT; rs_again). rewrite flat_loop_nil. rs_again.
  rs_stmt. rs_for.
  match goal with |- context [iter_n _ _ ?s] => set (st := s) in * end.
  match goal with |- context [loop _ _ ?r] =>
    match r with (_, VArr U32 _) :: ?e => set (E := e) in *; change r with (("state", VArr U32 st) :: E) end end.
  rewrite (flat_loop _ _ _ (fun l => ("state", VArr U32 l) :: E) (fun _ => s_double_round) (fun l => length l = 16%nat)).
  2:{ reflexivity. }
  2:{ intros w a Ha _. rewrite s_dr_len. exact Ha. }
  2:{ intros w a Ha _. unfold for_body. cbn [bind_pat xbind]. rewrite eval_blk. rs_flow. unfold E.
      do 8 (rs_stmt; rewrite HQ; [rs_again|rewrite ?s_qr_len; exact Ha|cbn [In s_quads]; tauto]).
      rewrite execs_nil. rs_lhs. cbv [s_double_round]. reflexivity. }
  rewrite fold_iter, map_length, numbers_length, N.sub_0_r. rs_flow.
  pose proof (s_iter_len (N.to_nat n) st eq_refl) as H2.
  generalize dependent (iter_n (N.to_nat n) s_double_round st). intros res H2.
  destr_list res H2. unfold E. clear.
  rs_stmt. rs_stmt. rs_stmt_all. rewrite execs_nil. rs_lhs_all.
  cbn [flat_map app]. rewrite !le_bytes4; reflexivity.
Qed.
Lemma hsalsa_len n key input : length key = 32%nat -> length input = 16%nat -> length (hsalsa n key input) = 32%nat.
Proof. reflexivity. Qed.
Definition s_xcore_val (st : list N) : val := VStruct "XSalsaCore" [("0", s_core_val st)].
(** [xsalsa.rs:44-49] *)
Lemma src_xsalsa_new : forall ck usz n d key iv, In usz pointer_widths -> length key = 32%nat -> length iv = 24%nat ->
  run_fn (salsa_g ck usz n) salsa_prog (S (S (S d))) "XSalsaCore::new" [VArr U8 key; VArr U8 iv] =
  XOk (s_xcore_val (xsalsa_new (N.to_nat n) key iv), [VArr U8 key; VArr U8 iv]).
Proof.
  intros ck usz n d key iv U Hk Hi.
  assert (Hf : length (firstn 16 iv) = 16%nat) by (rewrite firstn_length, Hi; reflexivity).
  assert (Hn : length (skipn 16 iv) = 8%nat) by (rewrite skipn_length, Hi; reflexivity).
  rs_enter. pose proof (src_hsalsa ck usz n d key (firstn 16 iv) Hk Hf) as HH.
  pose proof (hsalsa_len (N.to_nat n) key (firstn 16 iv) Hk Hf) as Hs.
  pose proof (src_s_new ck usz n (S d) _ _ U Hs Hn) as HN.
  revert HH HN. unfold xsalsa_new.
  generalize (run_fn (salsa_g ck usz n) salsa_prog (S (S d))) as cf. intros cf HH HN.
  generalize dependent (hsalsa (N.to_nat n) key (firstn 16 iv)). intros sub Hs HH HN.
  generalize dependent (salsa_new sub (skipn 16 iv)). intros st HN.
  destr_list iv Hi. cbn [firstn skipn app repeat] in *.
  rs_body. rs_stmt. rewrite HH. rs_again. rs_stmt. rs_stmt. rewrite execs_nil. rs_flow. rs_expr.
  rewrite HN. rs_lhs. reflexivity.
Qed.
