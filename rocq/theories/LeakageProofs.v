(** Erasing the traces gives the model; the traces are functions of lengths. *)
From Verif Require Export Leakage.
From Verif Require Import WordLemmas ChaChaCore ChaChaBackend ChaChaSoft ChaChaProofs XChaCha ChaChaDispatchProofs Salsa SalsaProofs Rc4.
From Coq Require Import Lia.

Lemma value_bind {A B} (m : L A) (f : A -> L B) : value (lbind m f) = value (f (value m)).
Proof. unfold lbind, value. destruct m as [x t]. cbn [fst]. destruct (f x). reflexivity. Qed.
Lemma trace_bind {A B} (m : L A) (f : A -> L B) : trace (lbind m f) = trace m ++ trace (f (value m)).
Proof. unfold lbind, value, trace. destruct m as [x t]. cbn [fst snd]. destruct (f x). reflexivity. Qed.
Lemma value_ret {A} (x : A) : value (ret x) = x. Proof. reflexivity. Qed.
Lemma trace_ret {A} (x : A) : trace (ret x) = []. Proof. reflexivity. Qed.
Lemma value_emit t : value (emit t) = tt. Proof. reflexivity. Qed.
Lemma trace_emit t : trace (emit t) = t. Proof. reflexivity. Qed.
Lemma value_rd st i : value (rd st i) = get st i. Proof. reflexivity. Qed.
Lemma trace_rd st i : trace (rd st i) = [Rd i]. Proof. reflexivity. Qed.
Lemma value_wr st i x : value (wr st i x) = upd st i x. Proof. reflexivity. Qed.
Lemma trace_wr st i x : trace (wr st i x) = [Wr i]. Proof. reflexivity. Qed.
Lemma value_branch b : value (branch b) = b. Proof. reflexivity. Qed.
Lemma trace_branch b : trace (branch b) = [Br b]. Proof. reflexivity. Qed.
Ltac vstep := rewrite ?value_bind, ?value_ret, ?value_emit, ?value_rd, ?value_wr, ?value_branch.
Ltac tstep := rewrite ?trace_bind, ?value_bind, ?trace_ret, ?trace_emit, ?trace_rd, ?trace_wr, ?trace_branch,
  ?value_ret, ?value_emit, ?value_rd, ?value_wr, ?value_branch.
Definition t_qr (a b c d : nat) : list event :=
  [Rd a; Rd b; Wr a; Rd a; Rd d; Wr d; Rd d; Wr d; Rd c; Rd d; Wr c; Rd c; Rd b; Wr b; Rd b; Wr b;
   Rd a; Rd b; Wr a; Rd a; Rd d; Wr d; Rd d; Wr d; Rd c; Rd d; Wr c; Rd c; Rd b; Wr b; Rd b; Wr b].
Definition t_sqr (a b c d : nat) : list event :=
  [Rd a; Rd d; Rd b; Wr b; Rd b; Rd a; Rd c; Wr c; Rd c; Rd b; Rd d; Wr d; Rd d; Rd c; Rd a; Wr a].
(** The quarter rounds, by computation. *)
Lemma l_quarter_round_value a b c d st : value (l_quarter_round a b c d st) = quarter_round a b c d st.
Proof. with_strategy transparent [quarter_round] reflexivity. Qed.
Lemma l_quarter_round_trace a b c d st : trace (l_quarter_round a b c d st) = t_qr a b c d.
Proof. reflexivity. Qed.
Lemma l_s_quarter_round_value a b c d st : value (l_s_quarter_round a b c d st) = s_quarter_round a b c d st.
Proof. with_strategy transparent [s_quarter_round] reflexivity. Qed.
Lemma l_s_quarter_round_trace a b c d st : trace (l_s_quarter_round a b c d st) = t_sqr a b c d.
Proof. reflexivity. Qed.
Global Opaque lbind ret emit rd wr branch value trace.

(** ** Values *)
Lemma l_for_value {A} n (body : A -> L A) f x : (forall y, value (body y) = f y) -> value (l_for n body x) = iter_n n f x.
Proof.
  intros H. revert x; induction n as [|n IH]; intros x; cbn [l_for iter_n]; vstep; [reflexivity|]. rewrite H. apply IH.
Qed.
Lemma l_double_round_value st : value (l_double_round st) = double_round st.
Proof. unfold l_double_round. with_strategy transparent [double_round] unfold double_round. vstep. rewrite !l_quarter_round_value. reflexivity. Qed.
Lemma l_zip_add_value i a b : value (l_zip_add i a b) = zip_add32 a b.
Proof.
  revert i b; induction a as [|x a IH]; intros i [|y b]; cbn [l_zip_add zip_add32]; vstep; try reflexivity.
  rewrite IH. reflexivity.
Qed.
Lemma l_run_rounds_value n st : value (l_run_rounds n st) = run_rounds n st.
Proof. unfold l_run_rounds, run_rounds. vstep. rewrite l_zip_add_value, (l_for_value n _ double_round) by apply l_double_round_value. reflexivity. Qed.
Lemma l_output_value i l : value (l_output i l) = bytes_of_words l.
Proof. revert i; induction l as [|x l IH]; intros i; cbn [l_output]; vstep; [reflexivity|]. rewrite IH. reflexivity. Qed.
Lemma l_soft_value v n st : value (l_soft_gen_ks_block v n st) = soft_gen_ks_block v n st.
Proof.
  unfold l_soft_gen_ks_block, soft_gen_ks_block. vstep. cbv zeta. rewrite l_run_rounds_value, l_output_value.
  destruct (counter_size v =? 8)%nat; vstep; reflexivity.
Qed.
Lemma l_soft_rng_step_value n st : value (l_soft_rng_step n st) = soft_rng_step n st.
Proof. unfold l_soft_rng_step, soft_rng_step. vstep. cbv zeta. rewrite l_run_rounds_value. vstep. reflexivity. Qed.
Lemma l_rng_blocks_value n k : forall b st, value (l_rng_blocks n k b st) = gen_ones (soft_rng_step n) k st.
Proof.
  induction k as [|k IH]; intros b st; cbn [l_rng_blocks gen_ones]; vstep; [reflexivity|].
  rewrite IH, l_soft_rng_step_value. destruct (soft_rng_step n st) as [o st1]. cbn [fst snd].
  destruct (gen_ones (soft_rng_step n) k st1) as [o' st2]. reflexivity.
Qed.
Lemma l_zip_assign_value i a b : value (l_zip_assign i a b) = zip_assign a b.
Proof.
  revert i b; induction a as [|x a IH]; intros i [|y b]; cbn [l_zip_assign zip_assign]; vstep; try reflexivity.
  rewrite IH. reflexivity.
Qed.
Lemma l_new_internal_value v key iv : value (l_new_internal v key iv) = new_internal v key iv.
Proof.
  unfold l_new_internal, new_internal. vstep. cbv zeta.
  destruct (Nat.eqb (length iv) 4 || Nat.eqb (length iv) 8 || Nat.eqb (length iv) 12)%bool; cbn [assert_ bind]; [|apply value_ret].
  vstep. change (length _ =? length CONSTANTS)%nat with true. cbn [assert_ bind]. destruct (4 * _ =? length iv)%nat; cbn [assert_ bind]; [|apply value_ret].
  vstep. rewrite !l_zip_assign_value. reflexivity.
Qed.
Lemma l_get_block_pos_value v st : value (l_get_block_pos v st) = get_block_pos v st.
Proof. destruct v; cbn [l_get_block_pos get_block_pos]; vstep; reflexivity. Qed.
Lemma l_set_block_pos_value v st p : value (l_set_block_pos v st p) = set_block_pos v st p.
Proof. destruct v; cbn [l_set_block_pos set_block_pos]; vstep; reflexivity. Qed.
Lemma l_hchacha_value n key input : length key = 32%nat -> length input = 16%nat ->
  value (l_hchacha n key input) = hchacha n key input.
Proof.
  intros Hk Hi. unfold l_hchacha, hchacha. vstep. cbv zeta. rewrite !l_output_value, !l_zip_assign_value.
  rewrite (l_for_value n _ double_round) by apply l_double_round_value.
  pose proof (words_of_bytes_length 8 key Hk) as H8. pose proof (words_of_bytes_length 4 input Hi) as H4.
  set (k := words_of_bytes key) in *. set (i := words_of_bytes input) in *. clearbody k i. clear Hk Hi.
  destruct k as [|k0 [|k1 [|k2 [|k3 [|k4 [|k5 [|k6 [|k7 [|]]]]]]]]]; try discriminate H8.
  destruct i as [|i0 [|i1 [|i2 [|i3 [|]]]]]; try discriminate H4. reflexivity.
Qed.
Lemma l_xchacha_new_value n key iv : length key = 32%nat -> length iv = 24%nat ->
  value (l_xchacha_new n key iv) = xchacha_new n key iv.
Proof.
  intros Hk Hi. unfold l_xchacha_new, xchacha_new. vstep. cbv zeta.
  rewrite firstn_length, !skipn_length, Hi. cbn [Nat.min Nat.sub Nat.eqb length repeat assert_ bind]. rewrite l_new_internal_value, l_hchacha_value;
    [reflexivity | exact Hk | rewrite firstn_length, Hi; reflexivity].
Qed.

Lemma l_s_double_round_value st : value (l_s_double_round st) = s_double_round st.
Proof. unfold l_s_double_round. with_strategy transparent [s_double_round] unfold s_double_round. vstep. rewrite !l_s_quarter_round_value. reflexivity. Qed.
Lemma l_zip_add_value_s i a b : value (l_zip_add i a b) = s_zip_add a b.
Proof.
  revert i b; induction a as [|x a IH]; intros i [|y b]; cbn [l_zip_add s_zip_add]; vstep; try reflexivity.
  rewrite IH. reflexivity.
Qed.
Lemma l_s_run_rounds_value n st : value (l_s_run_rounds n st) = s_run_rounds n st.
Proof. unfold l_s_run_rounds, s_run_rounds. vstep. rewrite l_zip_add_value_s, (l_for_value n _ s_double_round) by apply l_s_double_round_value. reflexivity. Qed.
Lemma l_salsa_get_value st : value (l_salsa_get_pos st) = salsa_get_pos st.
Proof. unfold l_salsa_get_pos. vstep. reflexivity. Qed.
Lemma l_salsa_set_value st p : value (l_salsa_set_pos st p) = salsa_set_pos st p.
Proof. unfold l_salsa_set_pos. vstep. reflexivity. Qed.
Lemma l_add_ck_value ck m a b : value (l_add_ck ck m a b) = add_ck ck m a b.
Proof.
  unfold l_add_ck, add_ck. rewrite N.leb_antisym. destruct (N.ltb_spec (a + b) m) as [H|H]; destruct ck; vstep; cbn [negb]; vstep; try reflexivity.
  f_equal. apply N.mod_small, H.
Qed.
Lemma l_salsa_value ck n st : value (l_salsa_gen_ks_block ck n st) = salsa_gen_ks_block ck n st.
Proof.
  unfold l_salsa_gen_ks_block, salsa_gen_ks_block. vstep. rewrite l_add_ck_value, l_salsa_get_value, l_s_run_rounds_value.
  destruct (add_ck ck M64 (salsa_get_pos st) 1); cbn [bind]; vstep; [|reflexivity].
  rewrite l_salsa_set_value, l_output_value. reflexivity.
Qed.
Lemma l_set_words_value ws : forall st i at_, value (l_set_words st i at_ ws) = set_words st at_ ws.
Proof. induction ws as [|w ws IH]; intros st i at_; cbn [l_set_words set_words]; vstep; [reflexivity|]. apply IH. Qed.
Lemma l_salsa_new_value key iv : value (l_salsa_new key iv) = salsa_new key iv.
Proof. unfold l_salsa_new, salsa_new. vstep. rewrite !l_set_words_value. reflexivity. Qed.
Lemma l_pick_value st idx : forall i, value (l_pick i idx st) = flat_map (fun k => to_le 4 (get st k)) idx.
Proof. induction idx as [|k idx IH]; intros i; cbn [l_pick flat_map]; vstep; [reflexivity|]. rewrite IH. reflexivity. Qed.
Lemma l_hsalsa_value n key input : value (l_hsalsa n key input) = hsalsa n key input.
Proof.
  unfold l_hsalsa, hsalsa. vstep. rewrite l_pick_value, (l_for_value n _ s_double_round) by apply l_s_double_round_value.
  vstep. rewrite !l_set_words_value. reflexivity.
Qed.
Lemma l_xsalsa_new_value n key iv : value (l_xsalsa_new n key iv) = xsalsa_new n key iv.
Proof. unfold l_xsalsa_new, xsalsa_new. vstep. rewrite l_salsa_new_value, l_hsalsa_value. reflexivity. Qed.

(** ** Traces *)
Lemma l_for_trace {A} n (body : A -> L A) t x : (forall y, trace (body y) = t) ->
  trace (l_for n body x) = concat (repeat (Br true :: t) n) ++ [Br false].
Proof.
  intros H. revert x; induction n as [|n IH]; intros x; cbn [l_for repeat concat]; tstep; [reflexivity|].
  rewrite H, IH. rewrite <- !app_assoc. reflexivity.
Qed.
Definition t_dr : list event :=
  t_qr 0 4 8 12 ++ t_qr 1 5 9 13 ++ t_qr 2 6 10 14 ++ t_qr 3 7 11 15 ++ t_qr 0 5 10 15 ++ t_qr 1 6 11 12 ++ t_qr 2 7 8 13 ++ t_qr 3 4 9 14.
Lemma l_double_round_trace st : trace (l_double_round st) = t_dr.
Proof. unfold l_double_round. tstep. rewrite !l_quarter_round_trace. reflexivity. Qed.
Fixpoint t_zip (ev : nat -> list event) (i n : nat) : list event :=
  match n with O => [Br false] | S n' => (Br true :: ev i) ++ t_zip ev (S i) n' end.
Lemma l_zip_add_trace i a b : length a = length b -> trace (l_zip_add i a b) = t_zip (fun i => [Rd i; Rd i; Wr i]) i (length a).
Proof.
  revert i b; induction a as [|x a IH]; intros i [|y b] H; try discriminate H; cbn [l_zip_add length t_zip]; tstep; [reflexivity|].
  rewrite IH by (cbn in H; lia). rewrite app_nil_r. reflexivity.
Qed.
Lemma quarter_round_len a b c d st : length (quarter_round a b c d st) = length st.
Proof.
  with_strategy transparent [quarter_round] unfold quarter_round. do 12 (etransitivity; [apply upd_length|]). reflexivity.
Qed.
Lemma double_round_length st : length (double_round st) = length st.
Proof.
  with_strategy transparent [double_round] unfold double_round. cbv zeta. rewrite !quarter_round_len. reflexivity.
Qed.
Lemma iter_length (f : list N -> list N) n st : (forall x, length (f x) = length x) -> length (iter_n n f st) = length st.
Proof. intros H. revert st; induction n as [|n IH]; intros st; cbn [iter_n]; [reflexivity|]. rewrite IH. apply H. Qed.
Definition t_rounds (dr : list event) (n len : nat) : list event :=
  (concat (repeat (Br true :: dr) n) ++ [Br false]) ++ t_zip (fun i => [Rd i; Rd i; Wr i]) 0 len.
Lemma l_run_rounds_trace n st : trace (l_run_rounds n st) = t_rounds t_dr n (length st).
Proof.
  unfold l_run_rounds, t_rounds. tstep. rewrite (l_for_trace n _ t_dr) by apply l_double_round_trace.
  rewrite (l_for_value n _ double_round) by apply l_double_round_value.
  assert (Hl : length (iter_n n double_round st) = length st) by apply iter_length, double_round_length.
  rewrite l_zip_add_trace, Hl by exact Hl. reflexivity.
Qed.
Lemma zip_add_length a b : length (zip_add32 a b) = length a.
Proof. revert b; induction a as [|x a IH]; intros [|y b]; cbn [zip_add32 length]; auto. Qed.
Lemma run_rounds_length n st : length (run_rounds n st) = length st.
Proof. unfold run_rounds. rewrite zip_add_length. apply iter_length, double_round_length. Qed.
Lemma l_output_trace l : forall i, trace (l_output i l) = t_zip (fun i => [Rd i; Wr i]) i (length l).
Proof.
  induction l as [|x l IH]; intros i; cbn [l_output length t_zip]; tstep; [reflexivity|]. rewrite IH, app_nil_r. reflexivity.
Qed.
Definition t_soft (v : variant) (n len : nat) : list event :=
  t_rounds t_dr n len ++ [Rd 13; Rd 12; Wr 12] ++ (match v with Ietf => [Br false] | Legacy => [Br true; Wr 13] end)
  ++ t_zip (fun i => [Rd i; Wr i]) 0 len.
Lemma l_soft_trace v n st : trace (l_soft_gen_ks_block v n st) = t_soft v n (length st).
Proof.
  unfold l_soft_gen_ks_block, t_soft. tstep. rewrite l_run_rounds_trace, l_run_rounds_value. cbv zeta. tstep.
  rewrite l_output_trace, run_rounds_length.
  destruct v; cbn [counter_size Nat.eqb]; tstep; rewrite app_nil_r; reflexivity.
Qed.
Definition t_rng_step (n len : nat) : list event := t_rounds t_dr n len ++ [Rd 13; Rd 12; Wr 12; Wr 13].
Lemma l_soft_rng_step_trace n st : trace (l_soft_rng_step n st) = t_rng_step n (length st).
Proof. unfold l_soft_rng_step, t_rng_step. tstep. rewrite l_run_rounds_trace. cbv zeta. tstep. reflexivity. Qed.
Fixpoint t_rng (n len k b : nat) : list event :=
  match k with O => [Br false] | S k' => [Br true] ++ t_rng_step n len ++ [Wr (b * 16)] ++ t_rng n len k' (S b) end.
Lemma soft_rng_step_length n st : length (snd (soft_rng_step n st)) = length st.
Proof. unfold soft_rng_step. cbv zeta. cbn [snd]. rewrite !upd_length. reflexivity. Qed.
Lemma l_rng_blocks_trace n k : forall b st, trace (l_rng_blocks n k b st) = t_rng n (length st) k b.
Proof.
  induction k as [|k IH]; intros b st; cbn [l_rng_blocks t_rng]; tstep; [reflexivity|].
  rewrite IH, l_soft_rng_step_trace, l_soft_rng_step_value, soft_rng_step_length, app_nil_r. reflexivity.
Qed.
Definition t_copy (a b : nat) : list event := t_zip (fun i => [Rd i; Wr i]) 0 (Nat.min a b).
Lemma l_zip_assign_trace a : forall i b, trace (l_zip_assign i a b) = t_zip (fun i => [Rd i; Wr i]) i (Nat.min (length a) (length b)).
Proof.
  induction a as [|x a IH]; intros i [|y b]; cbn [l_zip_assign length Nat.min t_zip]; tstep; try reflexivity.
  rewrite IH, app_nil_r. reflexivity.
Qed.
(** Constructors: the trace depends on the lengths of the inputs only. *)
Lemma words_len_eq (a b : list N) n : length a = (4 * n)%nat -> length b = (4 * n)%nat -> length (words_of_bytes a) = length (words_of_bytes b).
Proof. intros Ha Hb. rewrite (words_of_bytes_length n a), (words_of_bytes_length n b); auto. Qed.
Lemma l_new_internal_trace v k1 k2 iv1 iv2 : length k1 = 32%nat -> length k2 = 32%nat -> length iv1 = length iv2 ->
  trace (l_new_internal v k1 iv1) = trace (l_new_internal v k2 iv2).
Proof.
  intros H1 H2 Hi. unfold l_new_internal. cbv zeta. tstep. rewrite <- Hi.
  destruct (Nat.eqb (length iv1) 4 || Nat.eqb (length iv1) 8 || Nat.eqb (length iv1) 12)%bool eqn:Ea; [|reflexivity].
  assert (Hw : length (words_of_bytes iv1) = length (words_of_bytes iv2)).
  { apply Bool.orb_prop in Ea as [Ea|Ea]; [apply Bool.orb_prop in Ea as [Ea|Ea]|]; apply Nat.eqb_eq in Ea.
    - apply (words_len_eq _ _ 1); lia.
    - apply (words_len_eq _ _ 2); lia.
    - apply (words_len_eq _ _ 3); lia. }
  tstep. rewrite !l_zip_assign_trace, (words_len_eq k1 k2 8 H1 H2).
  destruct (4 * length _ =? length iv1)%nat; tstep; [|reflexivity]. rewrite !l_zip_assign_trace, Hw. reflexivity.
Qed.
Lemma l_hchacha_trace n k1 k2 i1 i2 : length k1 = 32%nat -> length k2 = 32%nat -> length i1 = 16%nat -> length i2 = 16%nat ->
  trace (l_hchacha n k1 i1) = trace (l_hchacha n k2 i2).
Proof.
  intros H1 H2 H3 H4. unfold l_hchacha. tstep.
  rewrite !l_output_trace, !l_zip_assign_trace, !(l_for_trace n _ t_dr) by apply l_double_round_trace.
  rewrite !(l_for_value n _ double_round) by apply l_double_round_value.
  rewrite (words_len_eq k1 k2 8 H1 H2), (words_len_eq i1 i2 4 H3 H4).
  rewrite !firstn_length, !skipn_length, !iter_length by apply double_round_length.
  rewrite !l_zip_assign_value, !app_length.
  assert (Z : forall a b, length (zip_assign a b) = length a).
  { induction a as [|x a IH]; intros [|y b]; cbn [zip_assign length]; auto. }
  rewrite !Z. reflexivity.
Qed.
Lemma l_xchacha_new_trace n k1 k2 iv1 iv2 : length k1 = 32%nat -> length k2 = 32%nat -> length iv1 = 24%nat -> length iv2 = 24%nat ->
  bytes k1 -> bytes k2 -> bytes iv1 -> bytes iv2 ->
  trace (l_xchacha_new n k1 iv1) = trace (l_xchacha_new n k2 iv2).
Proof.
  intros H1 H2 H3 H4 B1 B2 B3 B4. unfold l_xchacha_new. tstep.
  assert (F1 : length (firstn 16 iv1) = 16%nat) by (rewrite firstn_length, H3; reflexivity).
  assert (F2 : length (firstn 16 iv2) = 16%nat) by (rewrite firstn_length, H4; reflexivity).
  rewrite (l_hchacha_trace n k1 k2 _ _ H1 H2 F1 F2). f_equal. apply l_new_internal_trace.
  - rewrite l_hchacha_value by assumption. apply hchacha_length; try assumption. apply bytes_firstn, B3.
  - rewrite l_hchacha_value by assumption. apply hchacha_length; try assumption. apply bytes_firstn, B4.
  - rewrite !app_length, !skipn_length. lia.
Qed.

(** Salsa *)
Definition t_sdr : list event :=
  t_sqr 0 4 8 12 ++ t_sqr 5 9 13 1 ++ t_sqr 10 14 2 6 ++ t_sqr 15 3 7 11 ++ t_sqr 0 1 2 3 ++ t_sqr 5 6 7 4 ++ t_sqr 10 11 8 9 ++ t_sqr 15 12 13 14.
Lemma l_s_double_round_trace st : trace (l_s_double_round st) = t_sdr.
Proof. unfold l_s_double_round. tstep. rewrite !l_s_quarter_round_trace. reflexivity. Qed.
Lemma s_quarter_round_len a b c d st : length (s_quarter_round a b c d st) = length st.
Proof.
  with_strategy transparent [s_quarter_round] unfold s_quarter_round. do 4 (etransitivity; [apply upd_length|]). reflexivity.
Qed.
Lemma s_double_round_length st : length (s_double_round st) = length st.
Proof.
  with_strategy transparent [s_double_round] unfold s_double_round. cbv zeta. rewrite !s_quarter_round_len. reflexivity.
Qed.
Lemma l_s_run_rounds_trace n st : trace (l_s_run_rounds n st) = t_rounds t_sdr n (length st).
Proof.
  unfold l_s_run_rounds, t_rounds. tstep. rewrite (l_for_trace n _ t_sdr) by apply l_s_double_round_trace.
  rewrite (l_for_value n _ s_double_round) by apply l_s_double_round_value.
  assert (Hl : length (iter_n n s_double_round st) = length st) by apply iter_length, s_double_round_length.
  rewrite l_zip_add_trace, Hl by exact Hl. reflexivity.
Qed.
Lemma s_zip_add_length a b : length (s_zip_add a b) = length a.
Proof. revert b; induction a as [|x a IH]; intros [|y b]; cbn [s_zip_add length]; auto. Qed.
Lemma s_run_rounds_length n st : length (s_run_rounds n st) = length st.
Proof. unfold s_run_rounds. rewrite s_zip_add_length. apply iter_length, s_double_round_length. Qed.
Lemma l_salsa_get_trace st : trace (l_salsa_get_pos st) = [Rd 8; Rd 9].
Proof. unfold l_salsa_get_pos. tstep. reflexivity. Qed.
Lemma l_salsa_set_trace st p : trace (l_salsa_set_pos st p) = [Wr 8; Wr 9].
Proof. unfold l_salsa_set_pos. tstep. reflexivity. Qed.
Definition t_salsa (ck : bool) (n len : nat) : list event :=
  t_rounds t_sdr n len ++ [Rd 8; Rd 9] ++ (if ck then [Br false] else []) ++ [Wr 8; Wr 9] ++ t_zip (fun i => [Rd i; Wr i]) 0 len.
Lemma l_salsa_trace ck n st o : value (l_salsa_gen_ks_block ck n st) = Ok o -> trace (l_salsa_gen_ks_block ck n st) = t_salsa ck n (length st).
Proof.
  unfold l_salsa_gen_ks_block, t_salsa. vstep. tstep. rewrite l_s_run_rounds_trace, l_salsa_get_trace, l_salsa_get_value, l_s_run_rounds_value.
  unfold l_add_ck. destruct ck; vstep; tstep.
  - destruct (M64 <=? salsa_get_pos st + 1); vstep; tstep; [discriminate|]. intros _.
    rewrite l_salsa_set_trace, l_output_trace, s_run_rounds_length, !app_nil_r. reflexivity.
  - intros _. rewrite l_salsa_set_trace, l_output_trace, s_run_rounds_length, ?app_nil_r. reflexivity.
Qed.
Lemma l_set_words_trace w1 : forall w2 st1 st2 i at_, length w1 = length w2 -> trace (l_set_words st1 i at_ w1) = trace (l_set_words st2 i at_ w2).
Proof.
  induction w1 as [|x w1 IH]; intros [|y w2] st1 st2 i at_ H; try discriminate H; cbn [l_set_words]; tstep; [reflexivity|].
  f_equal. f_equal. apply IH. cbn in H. lia.
Qed.
Ltac tapp := repeat first [apply l_set_words_trace; assumption | apply (f_equal2 (@app event)); [first [apply l_set_words_trace; assumption | reflexivity]|]];
  try (match goal with |- [Wr _] = [Wr _] => reflexivity end).
Lemma l_salsa_new_trace k1 k2 iv1 iv2 : length k1 = 32%nat -> length k2 = 32%nat -> length iv1 = 8%nat -> length iv2 = 8%nat ->
  trace (l_salsa_new k1 iv1) = trace (l_salsa_new k2 iv2).
Proof.
  intros H1 H2 H3 H4. unfold l_salsa_new. tstep.
  assert (A : length (words_of_bytes (firstn 16 k1)) = length (words_of_bytes (firstn 16 k2)))
    by (apply (words_len_eq _ _ 4); rewrite firstn_length; lia).
  assert (B : length (words_of_bytes (skipn 16 k1)) = length (words_of_bytes (skipn 16 k2)))
    by (apply (words_len_eq _ _ 4); rewrite skipn_length; lia).
  assert (C : length (words_of_bytes iv1) = length (words_of_bytes iv2)) by (apply (words_len_eq _ _ 2); assumption).
  tapp.
Qed.
Lemma l_pick_trace idx : forall i st1 st2, trace (l_pick i idx st1) = trace (l_pick i idx st2).
Proof. induction idx as [|k idx IH]; intros i st1 st2; cbn [l_pick]; tstep; [reflexivity|]. rewrite (IH (S i) st1 st2). reflexivity. Qed.
Lemma l_hsalsa_trace n k1 k2 i1 i2 : length k1 = 32%nat -> length k2 = 32%nat -> length i1 = 16%nat -> length i2 = 16%nat ->
  trace (l_hsalsa n k1 i1) = trace (l_hsalsa n k2 i2).
Proof.
  intros H1 H2 H3 H4. unfold l_hsalsa. tstep. rewrite !(l_for_trace n _ t_sdr) by apply l_s_double_round_trace.
  assert (A : length (words_of_bytes (slice k1 0 16)) = length (words_of_bytes (slice k2 0 16)))
    by (apply (words_len_eq _ _ 4); unfold slice; rewrite firstn_length; cbn [skipn]; lia).
  assert (B : length (words_of_bytes (skipn 16 k1)) = length (words_of_bytes (skipn 16 k2)))
    by (apply (words_len_eq _ _ 4); rewrite skipn_length; lia).
  assert (C : length (words_of_bytes i1) = length (words_of_bytes i2)) by (apply (words_len_eq _ _ 4); assumption).
  tapp. apply l_pick_trace.
Qed.
Lemma l_xsalsa_new_trace n k1 k2 iv1 iv2 : length k1 = 32%nat -> length k2 = 32%nat -> length iv1 = 24%nat -> length iv2 = 24%nat ->
  trace (l_xsalsa_new n k1 iv1) = trace (l_xsalsa_new n k2 iv2).
Proof.
  intros H1 H2 H3 H4. unfold l_xsalsa_new. tstep. apply (f_equal2 (@app event)); [apply l_hsalsa_trace; try assumption; rewrite firstn_length; lia|].
  apply l_salsa_new_trace; [rewrite l_hsalsa_value; apply hsalsa_length; [assumption | rewrite firstn_length; lia]
    | rewrite l_hsalsa_value; apply hsalsa_length; [assumption | rewrite firstn_length; lia] | |]; rewrite skipn_length; lia.
Qed.
