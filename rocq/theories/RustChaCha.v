(** The text of the portable ChaCha code, run: it computes the functions of the model. *)
From Coq Require Import String.
From Verif Require Import WordLemmas RustLemmas.
From Verif Require Export ChaChaSoft XChaCha.
Local Open Scope string_scope.
Local Open Scope N_scope.
Local Open Scope list_scope.

Ltac rs_norm t ::=
  eval cbv -[run_fn loop for_body
             add32 sub32 add64 xor32 rotl32 rotr32 w_add w_sub w_mul w_and w_or w_xor w_shl w_shr w_div w_mod w_trunc w_fits le_byte from_le N.pow
             quarter_round double_round run_rounds iter_n] in t.
Ltac rs_norm_all t ::=
  eval cbv -[run_fn
             add32 sub32 add64 xor32 rotl32 rotr32 w_add w_sub w_mul w_and w_or w_xor w_shl w_shr w_div w_mod w_trunc w_fits le_byte from_le N.pow
             quarter_round double_round run_rounds iter_n] in t.

Lemma qr_len a b c d st : length (quarter_round a b c d st) = length st.
Proof. cbv beta delta [quarter_round]. do 12 (etransitivity; [apply upd_len|]). reflexivity. Qed.
Lemma dr_len st : length (double_round st) = length st.
Proof. unfold double_round. rewrite !qr_len. reflexivity. Qed.
Lemma za_len a b : length (zip_add32 a b) = length a.
Proof. revert b. induction a as [|x a IH]; intros [|y b]; cbn; [reflexivity..|]. rewrite IH. reflexivity. Qed.
Lemma rr_len n st : length (run_rounds n st) = length st.
Proof. unfold run_rounds. rewrite za_len. apply (iter_inv _ (fun l => length l = length st)); [|reflexivity]. intros a Ha. rewrite dr_len. exact Ha. Qed.

(** The index quadruples of a double round. *)
Definition quads : list (N * N * N * N) :=
  [(0, 4, 8, 12); (1, 5, 9, 13); (2, 6, 10, 14); (3, 7, 11, 15); (0, 5, 10, 15); (1, 6, 11, 12); (2, 7, 8, 13); (3, 4, 9, 14)].
(** [lib.rs:321-343] *)
Lemma src_quarter_round : forall ck usz v c n d a0 a1 a2 a3 st, length st = 16%nat -> In (a0, a1, a2, a3) quads ->
  run_fn (chacha_g ck usz v c n) chacha_prog (S d) "quarter_round" [VInt Any a0; VInt Any a1; VInt Any a2; VInt Any a3; VArr U32 st] =
  XOk (VUnit, [VInt Usz a0; VInt Usz a1; VInt Usz a2; VInt Usz a3; VArr U32 (quarter_round (N.to_nat a0) (N.to_nat a1) (N.to_nat a2) (N.to_nat a3) st)]).
Proof.
  intros ck usz v c n d a0 a1 a2 a3 st H I.
  rs_enter. destr_list st H.
  cbn [In quads] in I.
  repeat (destruct I as [I|I]; [injection I as <- <- <- <-|]); [..|contradiction I].
  all: cbv -[run_fn add32 sub32 add64 xor32 rotl32 rotr32]; reflexivity.
Qed.
(** [soft.rs:66-87] *)
Lemma src_run_rounds : forall ck usz v c n d st, length st = 16%nat ->
  run_fn (chacha_g ck usz v c n) chacha_prog (S (S d)) "run_rounds" [VArr U32 st] =
  XOk (VArr U32 (run_rounds (N.to_nat n) st), [VArr U32 st]).
Proof.
  intros ck usz v c n d st H.
  rs_enter. pose proof (src_quarter_round ck usz v c n d) as HQ. revert HQ.
  generalize (run_fn (chacha_g ck usz v c n) chacha_prog (S d)) as cf. intros cf HQ.
  rs_body. rs_stmt. rs_for.
  rewrite (flat_loop _ _ _ (fun l => [("res", VArr U32 l); ("state", VArr U32 st)]) (fun _ => double_round) (fun l => length l = 16%nat)).
  2:{ exact H. }
  2:{ intros w a Ha _. rewrite dr_len. exact Ha. }
  2:{ intros w a Ha _. unfold for_body. cbn [bind_pat xbind]. rewrite eval_blk. rs_flow.
      do 8 (rs_stmt; rewrite HQ; [rs_again|rewrite ?qr_len; exact Ha|cbn [In quads]; tauto]).
      rewrite execs_nil. rs_lhs. cbv [double_round]. reflexivity. }
  rewrite fold_iter, map_length, numbers_length, N.sub_0_r. rs_flow.
  assert (H2 : length (iter_n (N.to_nat n) double_round st) = 16%nat).
  { apply (iter_inv _ (fun l => length l = 16%nat)); [|exact H]. intros a Ha. rewrite dr_len. exact Ha. }
  unfold run_rounds. generalize dependent (iter_n (N.to_nat n) double_round st). intros res H2.
  destr_list st H. destr_list res H2.
  rs_stmt_all. rewrite execs_nil. rs_lhs_all. reflexivity.
Qed.

(** An instance, and the values of its types. *)
Definition vname (v : variant) : string := match v with Ietf => "Ietf" | Legacy => "Legacy" end.
Definition vcounter (v : variant) : ity := match v with Ietf => U32 | Legacy => U64 end.
Definition chacha_i (ck : bool) (usz : N) (v : variant) (n : N) : genv := chacha_g ck usz (vname v) (vcounter v) n.
Definition core_val (st : list N) : val := VStruct "ChaChaCore" [("state", VArr U32 st); ("tokens", VUnit); ("_pd", VUnit)].
Definition backend_val (st : list N) : val := VStruct "Backend" [("0", core_val st)].

(** [soft.rs:33-45] *)
Lemma src_gen_ks_block : forall ck usz v n d st block, length st = 16%nat -> words st -> length block = 64%nat ->
  run_fn (chacha_i ck usz v n) chacha_prog (S (S (S d))) "Backend::gen_ks_block" [backend_val st; VArr U8 block] =
  let (ks, st') := soft_gen_ks_block v (N.to_nat n) st in XOk (VUnit, [backend_val st'; VArr U8 ks]).
Proof.
  intros ck usz v n d st block H W Hb.
  rs_enter. unfold chacha_i. pose proof (src_run_rounds ck usz (vname v) (vcounter v) n d st H) as HR. revert HR.
  generalize (run_fn (chacha_g ck usz (vname v) (vcounter v) n) chacha_prog (S (S d))) as cf. intros cf HR.
  rs_body. rs_stmt. rewrite HR. clear HR.
  unfold soft_gen_ks_block.
  assert (Hl : length (run_rounds (N.to_nat n) st) = 16%nat) by (rewrite rr_len; exact H).
  generalize dependent (run_rounds (N.to_nat n) st). intros res Hl. rs_again.
  assert (W3 : get st 13 < M32) by (apply (Forall_get W32); [exact W|reflexivity]).
  destr_list st H. destr_list res Hl. destr_list block Hb.
  change (get _ 13) with x12 in *.
  do 3 rs_stmt.
  destruct v; rs_stmt.
  all: rewrite execs_nil; rs_lhs_all; rewrite (shl_small _ _ _ M32 W3) by reflexivity.
  all: unfold bytes_of_words; cbn [flat_map app]; rewrite !le_bytes4; reflexivity.
Qed.

