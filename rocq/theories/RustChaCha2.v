(** The text of the ChaCha crate's other portable functions, run: positions, construction, HChaCha, the
    generator's four blocks. *)
From Coq Require Import String Lia.
From Verif Require Import WordLemmas RustLemmas.
From Verif Require Export RustChaCha.
Local Open Scope string_scope.
Local Open Scope N_scope.
Local Open Scope list_scope.

Ltac rs_norm t ::=
  eval cbv -[run_fn loop for_body
             add32 sub32 add64 xor32 rotl32 rotr32 w_add w_sub w_mul w_and w_or w_xor w_shl w_shr w_div w_mod w_trunc w_fits le_byte from_le N.pow
             quarter_round double_round run_rounds iter_n] in t.
Ltac rs_norm_all t ::=
  eval cbv -[run_fn
             add32 sub32 add64 xor32 rotl32 rotr32 w_add w_sub w_mul w_and w_or w_xor w_shl w_shr w_div w_mod w_trunc w_fits le_byte from_le N.pow
             quarter_round double_round run_rounds iter_n] in t.


(** [variants.rs:39-42, 68-70] through [lib.rs:192-195]. *)
Lemma src_get_block_pos : forall ck usz v n d st, length st = 16%nat -> words st ->
  run_fn (chacha_i ck usz v n) chacha_prog (S (S d)) "ChaChaCore::get_block_pos" [core_val st] =
  XOk (VInt (vcounter v) (get_block_pos v st), [core_val st]).
Proof.
  intros ck usz v n d st H W.
  assert (W3 : get st 13 < M32) by (apply (Forall_get W32); [exact W|reflexivity]).
  destr_list st H. change (get _ 13) with x12 in *.
  destruct v.
  - rs_enter. rs_body. rewrite execs_nil. rs_flow.
    match goal with |- context [eval ?g ?p ?c ?o ?e ?r] => rs_eval (eval g p c o e r) end.
    rs_enter. rs_lhs. reflexivity.
  - rs_enter. rs_body. rewrite execs_nil. rs_flow.
    match goal with |- context [eval ?g ?p ?c ?o ?e ?r] => rs_eval (eval g p c o e r) end.
    rs_enter. rs_lhs. rewrite (shl_small _ _ _ M32 W3) by reflexivity. reflexivity.
Qed.
(** [variants.rs:44-47, 72-76] through [lib.rs:199-202]. *)
Lemma src_set_block_pos : forall ck usz v n d st pos, length st = 16%nat ->
  run_fn (chacha_i ck usz v n) chacha_prog (S (S d)) "ChaChaCore::set_block_pos" [core_val st; VInt (vcounter v) pos] =
  XOk (VUnit, [core_val (set_block_pos v st pos); VInt (vcounter v) pos]).
Proof.
  intros ck usz v n d st pos H. destr_list st H.
  destruct v.
  - rs_enter. rs_body. rs_stmt. rs_enter. rs_lhs. reflexivity.
  - rs_enter. rs_body. rs_stmt. rs_enter. rs_lhs. reflexivity.
Qed.
(** [variants.rs:49-53, 79-83] through [lib.rs:234-236]. *)
Lemma src_variant_remaining : forall ck usz v n d pos, In usz pointer_widths -> pos < counter_max v + 1 ->
  run_fn (chacha_i ck usz v n) chacha_prog (S d) (vname v ++ "::remaining_blocks")%string [VInt (vcounter v) pos] =
  XOk (opt_val (remaining_blocks v usz pos), [VInt (vcounter v) pos]).
Proof.
  intros ck usz v n d pos U Hp. unfold remaining_blocks.
  destruct v; unfold vname, counter_max in *; cbn [append].
  - change (M32 - 1 + 1) with M32 in Hp. rs_enter. rs_body. rs_stmt.
    change 4294967295 with (M32 - 1). rewrite (sub_max ck M32 pos Hp). rs_flow. rewrite execs_nil.
    generalize (M32 - 1 - pos). intros x.
    destruct U as [<-|[<-|[<-|[]]]]. all: rs_lhs; unfold w_fits; change (2 ^ 16) with 65536; change (2 ^ 32) with M32; change (2 ^ 64) with M64; destruct (x <? _); reflexivity.
  - change (M64 - 1 + 1) with M64 in Hp. rs_enter. rs_body. rs_stmt.
    change 18446744073709551615 with (M64 - 1). rewrite (sub_max ck M64 pos Hp). rs_flow. rewrite execs_nil.
    generalize (M64 - 1 - pos). intros x.
    destruct U as [<-|[<-|[<-|[]]]]. all: rs_lhs; unfold w_fits; change (2 ^ 16) with 65536; change (2 ^ 32) with M32; change (2 ^ 64) with M64; destruct (x <? _); reflexivity.
Qed.
Lemma src_remaining_blocks : forall ck usz v n d st, In usz pointer_widths -> length st = 16%nat -> words st ->
  run_fn (chacha_i ck usz v n) chacha_prog (S (S (S d))) "ChaChaCore::remaining_blocks" [core_val st] =
  XOk (opt_val (remaining_blocks v usz (get_block_pos v st)), [core_val st]).
Proof.
  intros ck usz v n d st U H W.
  rs_enter. pose proof (src_get_block_pos ck usz v n d st H W) as HG.
  assert (Hp : get_block_pos v st < counter_max v + 1).
  { pose proof (Forall_get W32 st 12 W eq_refl) as W2. pose proof (Forall_get W32 st 13 W eq_refl) as W3.
    destruct v; unfold get_block_pos, counter_max; [exact W2|]. unfold W32 in *.
    rewrite N.shiftl_mul_pow2. destruct (N.eq_dec (N.lor (get st 13 * 2 ^ 32) (get st 12)) 0) as [->|Hne]; [reflexivity|].
    change (M64 - 1 + 1) with (2 ^ 64). apply N.log2_lt_pow2; [lia|]. rewrite N.log2_lor. apply N.max_lub_lt.
    - destruct (N.eq_dec (get st 13) 0) as [->|Hz]; [reflexivity|]. rewrite N.log2_mul_pow2 by lia.
      assert (N.log2 (get st 13) < 32) by (apply N.log2_lt_pow2; [lia|exact W3]). lia.
    - destruct (N.eq_dec (get st 12) 0) as [->|Hz]; [reflexivity|].
      assert (N.log2 (get st 12) < 32) by (apply N.log2_lt_pow2; [lia|exact W2]). lia. }
  pose proof (src_variant_remaining ck usz v n (S d) (get_block_pos v st) U Hp) as HR. revert HG HR.
  generalize (get_block_pos v st). intros pos.
  generalize (run_fn (chacha_i ck usz v n) chacha_prog (S (S d))) as cf. intros cf HG HR.
  rs_body. rewrite execs_nil. rs_flow. unfold core_val in *. destruct v; cbn [vname append vcounter] in *.
  all: match goal with |- context [eval ?g ?p ?c ?o ?e ?r] => rs_eval (eval g p c o e r) end; rs_flow.
  all: rewrite HG; rs_again; rewrite HR.
  all: destruct (remaining_blocks _ usz pos); rs_lhs; reflexivity.
Qed.

(** [lib.rs:139-190] *)
Definition of_res (m : Res (list N)) (k : list N -> X (val * list val)) : X (val * list val) := match m with Ok l => k l | Panic => XPanic end.
Lemma src_new_internal : forall ck usz v n d key iv, length key = 32%nat -> In (length iv) [4; 8; 12]%nat ->
  run_fn (chacha_i ck usz v n) chacha_prog (S d) "ChaChaCore::new_internal" [VArr U8 key; VArr U8 iv] =
  of_res (new_internal v key iv) (fun st => XOk (core_val st, [VArr U8 key; VArr U8 iv])).
Proof.
  intros ck usz v n d key iv H I. rs_enter.
  destr_list key H. destruct I as [I|[I|[I|[]]]]; symmetry in I; destr_list iv I.
  all: destruct v; cbv -[run_fn from_le]; reflexivity.
Qed.
(** [soft.rs:51-62]; [BLOCK_WORDS] from [rng.rs:27]. *)
Definition blocks_env (x : list N * list N) : env := [("self", backend_val (fst x)); ("buffer", VArr U32 (snd x))].
Definition blocks_step (n : nat) (v : val) (x : list N * list N) : list N * list N :=
  match v with VInt _ i => (snd (soft_rng_step n (fst x)), splice (snd x) (16 * i) 16 (fst (soft_rng_step n (fst x)))) | _ => x end.
Lemma splice_app : forall a b l s n, length a = N.to_nat s -> splice (a ++ b) s n l = a ++ l ++ skipn (N.to_nat n) b.
Proof.
  intros a b l s n H. unfold splice. rewrite <- H, firstn_app, Nat.sub_diag, firstn_all, app_nil_r, skipn_app, skipn_all2 by lia.
  replace (length a + N.to_nat n - length a)%nat with (N.to_nat n) by lia. reflexivity.
Qed.
Lemma splice_len : forall b l s n, (N.to_nat s + N.to_nat n <= length b)%nat -> length l = N.to_nat n -> length (splice b s n l) = length b.
Proof. intros b l s n H1 H2. unfold splice. rewrite !app_length, firstn_length, skipn_length. lia. Qed.
Lemma rng_step_ok : forall n s, length s = 16%nat -> words s ->
  length (fst (soft_rng_step n s)) = 16%nat /\ length (snd (soft_rng_step n s)) = 16%nat /\ words (snd (soft_rng_step n s)).
Proof.
  intros n s H W. unfold soft_rng_step. cbn [fst snd]. rewrite rr_len, !upd_len. split; [exact H|split; [exact H|]].
  apply Forall_upd; [apply Forall_upd; [exact W|]|]; apply N.mod_lt; discriminate.
Qed.
Lemma src_gen_ks_blocks : forall ck usz v c n d st buffer, In usz pointer_widths -> length st = 16%nat -> words st -> length buffer = 64%nat ->
  run_fn (chacha_g ck usz v c n) chacha_prog (S (S (S d))) "Backend::gen_ks_blocks" [backend_val st; VArr U32 buffer] =
  let (ks, st') := soft_gen_ks_blocks (N.to_nat n) st in XOk (VUnit, [backend_val st'; VArr U32 ks]).
Proof.
  intros ck usz v c n d st buffer U H W Hb.
  rs_enter. pose proof (src_run_rounds ck usz v c n d) as HR. revert HR.
  generalize (run_fn (chacha_g ck usz v c n) chacha_prog (S (S d))) as cf. intros cf HR.
  rs_body. rewrite execs_nil. rs_flow. rewrite eval_for. rs_flow.
  match goal with |- context [eval ?g ?p ?c ?o (ERng ?a ?b) ?r] => rs_eval (eval g p c o (ERng a b) r) end. rs_flow. rs_items.
  match goal with |- context [map (VInt ?t) ?l] => rs_eval (map (VInt t) l) end.
  match goal with |- context [loop ?b ?l ?r] => change r with (blocks_env (st, buffer)) end.
  rewrite (flat_loop _ _ _ blocks_env (blocks_step (N.to_nat n)) (fun x => length (fst x) = 16%nat /\ words (fst x) /\ length (snd x) = 64%nat)).
  - cbn [fold_left]. unfold soft_gen_ks_blocks, gen_ones.
    destruct (rng_step_ok (N.to_nat n) st H W) as [L0 [H0 W0]].
    unfold blocks_step at 4. cbn [fst snd]. destruct (soft_rng_step (N.to_nat n) st) as [r0 s0]. cbn [fst snd] in *.
    destruct (rng_step_ok (N.to_nat n) s0 H0 W0) as [L1 [H1 W1]].
    unfold blocks_step at 3. cbn [fst snd]. destruct (soft_rng_step (N.to_nat n) s0) as [r1 s1]. cbn [fst snd] in *.
    destruct (rng_step_ok (N.to_nat n) s1 H1 W1) as [L2 [H2 W2]].
    unfold blocks_step at 2. cbn [fst snd]. destruct (soft_rng_step (N.to_nat n) s1) as [r2 s2]. cbn [fst snd] in *.
    destruct (rng_step_ok (N.to_nat n) s2 H2 W2) as [L3 [H3 W3]].
    unfold blocks_step at 1. cbn [fst snd]. destruct (soft_rng_step (N.to_nat n) s2) as [r3 s3]. cbn [fst snd] in *.
    change (splice buffer (16 * 0) 16 r0) with (splice ([] ++ buffer) 0 16 r0). rewrite (splice_app [] buffer r0 0 16 eq_refl). cbn [app].
    rewrite (splice_app r0 _ r1) by exact L0. rewrite (app_assoc r0), (splice_app (r0 ++ r1)) by (rewrite app_length, L0, L1; reflexivity).
    rewrite (app_assoc (r0 ++ r1)), (splice_app ((r0 ++ r1) ++ r2)) by (rewrite !app_length, L0, L1, L2; reflexivity).
    replace (skipn _ (skipn _ (skipn _ (skipn _ buffer)))) with (@nil N).
    2:{ symmetry. apply length_zero_iff_nil. rewrite !skipn_length, Hb. reflexivity. }
    rewrite !app_nil_r. unfold blocks_env. cbn [fst snd]. rewrite <- !app_assoc.
    generalize (r0 ++ r1 ++ r2 ++ r3). intros ks. rs_lhs. reflexivity.
  - auto.
  - intros w [s b] [Hs [Ws Hbb]] Hw. cbn [fst snd] in Hs, Ws, Hbb. destruct (rng_step_ok (N.to_nat n) s Hs Ws) as [L0 [H0 W0]].
    destruct Hw as [<-|[<-|[<-|[<-|[]]]]]; unfold blocks_step; cbn [fst snd]; (split; [exact H0|split; [exact W0|]]).
    all: rewrite splice_len; [exact Hbb|rewrite Hbb; cbv; lia|exact L0].
  - intros w [s b] [Hs [Ws Hbb]] Hw. cbn [fst snd] in Hs, Ws, Hbb.
    unfold for_body, blocks_env. cbn [bind_pat xbind fst snd]. rewrite eval_blk. rs_flow.
    rs_stmt. rewrite HR by exact Hs.
    unfold blocks_step, soft_rng_step. cbn [fst snd].
    assert (Hl : length (run_rounds (N.to_nat n) s) = 16%nat) by (rewrite rr_len; exact Hs).
    generalize dependent (run_rounds (N.to_nat n) s). intros res Hl. rs_again.
    assert (W3 : get s 13 < M32) by (apply (Forall_get W32); [exact Ws|reflexivity]).
    destr_list s Hs. destr_list res Hl. destr_list b Hbb.
    change (get _ 13) with x12 in *.
    do 4 rs_stmt.
    destruct U as [<-|[<-|[<-|[]]]]; destruct Hw as [<-|[<-|[<-|[<-|[]]]]].
    all: rs_stmt; rewrite execs_nil; rs_lhs; rewrite (shl_small _ _ _ M32 W3) by reflexivity; reflexivity.
Qed.
Lemma iter_dr_len n st : length st = 16%nat -> length (iter_n n double_round st) = 16%nat.
Proof. intros H. apply (iter_inv _ (fun l => length l = 16%nat)); [|exact H]. intros a Ha. rewrite dr_len. exact Ha. Qed.
(** [xchacha.rs:113-153] *)
Lemma src_hchacha : forall ck usz v c n d key input, length key = 32%nat -> length input = 16%nat ->
  run_fn (chacha_g ck usz v c n) chacha_prog (S (S d)) "hchacha" [VArr U8 key; VArr U8 input] =
  XOk (VArr U8 (hchacha (N.to_nat n) key input), [VArr U8 key; VArr U8 input]).
Proof.
  intros ck usz v c n d key input Hk Hi.
  rs_enter. pose proof (src_quarter_round ck usz v c n d) as HQ. revert HQ.
  generalize (run_fn (chacha_g ck usz v c n) chacha_prog (S d)) as cf. intros cf HQ.
  unfold hchacha.
  destr_list key Hk. destr_list input Hi.
  match goal with |- context [iter_n _ _ ?s] => let u := eval cbv -[from_le] in s in change s with u end.
  rs_body. do 3 rs_stmt. rs_stmt_all. rs_stmt. rs_stmt_all. rs_for.
  match goal with |- context [iter_n _ _ ?s] => set (st := s) in * end.
  match goal with |- context [loop _ _ ?r] => 
    match r with ?a :: ?b :: (_, VArr U32 _) :: ?e => 
    set (A := a) in *; set (B := b) in *; set (E := e) in *; change r with (A :: B :: ("state", VArr U32 st) :: E) end end.
  rewrite (flat_loop _ _ _ (fun l => A :: B :: ("state", VArr U32 l) :: E) (fun _ => double_round) (fun l => length l = 16%nat)).
  2:{ reflexivity. }
  2:{ intros w a Ha _. rewrite dr_len. exact Ha. }
  2:{ intros w a Ha _. unfold for_body. cbn [bind_pat xbind]. rewrite eval_blk. rs_flow. unfold A, B, E.
      do 8 (rs_stmt; rewrite HQ; [rs_again|rewrite ?qr_len; exact Ha|cbn [In quads]; tauto]).
      rewrite execs_nil. rs_lhs. cbv [double_round]. reflexivity. }
  rewrite fold_iter, map_length, numbers_length, N.sub_0_r. rs_flow.
  pose proof (iter_dr_len (N.to_nat n) st eq_refl) as H2.
  generalize dependent (iter_n (N.to_nat n) double_round st). intros res H2.
  destr_list res H2. unfold A, B, E. clear.
  rs_stmt. rs_stmt_all. rs_stmt_all. rewrite execs_nil. rs_lhs_all.
  unfold bytes_of_words; cbn [flat_map app firstn skipn]; rewrite !le_bytes4; reflexivity.
Qed.
Lemma hchacha_len n key input : length key = 32%nat -> length input = 16%nat -> length (hchacha n key input) = 32%nat.
Proof.
  intros Hk Hi. destr_list key Hk. destr_list input Hi. unfold hchacha.
  match goal with |- context [iter_n _ _ ?s] => pose proof (iter_dr_len n s eq_refl) as H; generalize dependent (iter_n n double_round s) end.
  intros l H. destr_list l H. reflexivity.
Qed.
Definition xcore_val (st : list N) : val := VStruct "XChaChaCore" [("0", core_val st)].
(** [xchacha.rs:57-66] *)
Lemma src_xchacha_new : forall ck usz n d key iv, length key = 32%nat -> length iv = 24%nat ->
  run_fn (chacha_i ck usz Ietf n) chacha_prog (S (S (S d))) "XChaChaCore::new" [VArr U8 key; VArr U8 iv] =
  of_res (xchacha_new (N.to_nat n) key iv) (fun st => XOk (xcore_val st, [VArr U8 key; VArr U8 iv])).
Proof.
  intros ck usz n d key iv Hk Hi.
  assert (Hf : length (firstn 16 iv) = 16%nat) by (rewrite firstn_length, Hi; reflexivity).
  rs_enter. pose proof (src_hchacha ck usz "Ietf" U32 n d key (firstn 16 iv) Hk Hf) as HH.
  assert (Hs : length (hchacha (N.to_nat n) key (firstn 16 iv)) = 32%nat) by (apply hchacha_len; [exact Hk|exact Hf]).
  assert (Hn : length (firstn 4 (repeat 0 12) ++ skipn 16 iv) = 12%nat) by (rewrite app_length, skipn_length, Hi; reflexivity).
  pose proof (src_new_internal ck usz Ietf n (S d) _ _ Hs (or_intror (or_intror (or_introl (eq_sym Hn))))) as HN.
  revert HH HN. unfold chacha_i. cbn [vname vcounter]. unfold xchacha_new. rewrite Hf, !skipn_length, Hi.
  generalize (run_fn (chacha_g ck usz "Ietf" U32 n) chacha_prog (S (S d))) as cf. intros cf HH HN.
  cbn [Nat.eqb assert_ repeat skipn length Nat.sub bind].
  destr_list iv Hi. cbn [firstn skipn app repeat] in *. generalize dependent (hchacha (N.to_nat n) key [x; x0; x1; x2; x3; x4; x5; x6; x7; x8; x9; x10; x11; x12; x13; x14]).
  intros sub Hs HH HN.
  rs_body. rs_stmt. rewrite HH. rs_again. rs_stmt. rs_stmt. rewrite execs_nil. rs_flow.
  match goal with |- context [eval ?g ?p ?c ?o ?e ?r] => rs_eval (eval g p c o e r) end; rs_flow.
  rewrite HN. destruct (new_internal _ _ _) as [st|]; cbn [of_res]; rs_lhs; reflexivity.
Qed.
