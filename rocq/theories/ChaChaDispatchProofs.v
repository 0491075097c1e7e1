(** Backend selection is unobservable; XChaCha/HChaCha equal their specification. *)
From Verif Require Import Word Res WordLemmas SpecChaCha ChaChaCore ChaChaBackend ChaChaSoft ChaChaProofs
  SimdProofs ChaChaSse2Proofs ChaChaAvx2Proofs ChaChaAvx512Proofs ChaChaNeonProofs ChaChaDispatch XChaCha.
From Coq Require Import ZArith Lia ZifyBool ZifyNat ZifyN.
Ltac Zify.zify_post_hook ::= Z.div_mod_to_equations.

(** ** Requests issued for [k] blocks *)
Lemma reqs_blocks_app P a b : reqs_blocks P (a ++ b) = (reqs_blocks P a + reqs_blocks P b)%nat.
Proof.
  unfold reqs_blocks. induction a as [|r a IH]; [reflexivity|]. cbn [app fold_right]. rewrite IH. lia.
Qed.
Lemma reqs_blocks_repeat P r k : reqs_blocks P (repeat r k) = (k * req_blocks P r)%nat.
Proof. unfold reqs_blocks. induction k as [|k IH]; [reflexivity|]. cbn [repeat fold_right]. rewrite IH. lia. Qed.
Lemma closure_reqs_blocks P k : P <> 0%nat -> reqs_blocks P (closure_reqs P k) = k.
Proof.
  intros HP. unfold closure_reqs. destruct (1 <? P)%nat.
  - rewrite reqs_blocks_app, reqs_blocks_repeat. unfold reqs_blocks. cbn [fold_right req_blocks].
    pose proof (Nat.div_mod k P HP). lia.
  - rewrite reqs_blocks_repeat. cbn. lia.
Qed.
Lemma closure_reqs_ok P k : P <> 0%nat -> forallb (req_ok P) (closure_reqs P k) = true.
Proof.
  intros HP. unfold closure_reqs. destruct (1 <? P)%nat.
  - rewrite forallb_app. apply andb_true_intro. split.
    + apply forallb_forall. intros x Hx. apply repeat_spec in Hx. subst. reflexivity.
    + cbn. rewrite andb_true_r. apply Nat.ltb_lt. apply Nat.mod_upper_bound. assumption.
  - apply forallb_forall. intros x Hx. apply repeat_spec in Hx. subst. reflexivity.
Qed.

(** A closure that legally produces [k] blocks whatever the backend's width. *)
Definition produces (f : nat -> list req) (k : nat) : Prop :=
  forall P, In P [1; 4; 8; 16]%nat -> forallb (req_ok P) (f P) = true /\ reqs_blocks P (f P) = k.

Lemma process_ok c p v n f k st : wf16 st -> produces f k ->
  process_with_backend c p v n f st = Ok (blocks_from v n k st, adv v (N.of_nat k) st).
Proof.
  intros Hwf Hf.
  destruct (Hf 1%nat) as [O1 B1]; [cbn; auto|].
  destruct (Hf 4%nat) as [O4 B4]; [cbn; auto|].
  destruct (Hf 8%nat) as [O8 B8]; [cbn; auto|].
  destruct (Hf 16%nat) as [O16 B16]; [cbn; auto|].
  unfold process_with_backend. cbv zeta.
  rewrite soft_inner_ok, avx512_inner_ok, avx2_inner_ok, sse2_inner_ok, neon_inner_ok by assumption.
  rewrite B1, B4, B8, B16.
  destruct (c_backend c), (c_target c), (c_avx512 c), (has_avx512 p), (has_avx2 p), (has_sse2 p); reflexivity.
Qed.

Lemma closure_produces k : produces (fun P => closure_reqs P k) k.
Proof.
  intros P HP. assert (P <> 0%nat) by (cbn in HP; lia).
  split; [apply closure_reqs_ok | apply closure_reqs_blocks]; assumption.
Qed.

Lemma core_write_ok c p v n k st : wf16 st ->
  core_write c p v n k st = Ok (blocks_from v n k st, adv v (N.of_nat k) st).
Proof. intros H. apply process_ok; [assumption | apply closure_produces]. Qed.

(** ** RNG refill *)
Lemma soft_rng_step_eq n st : wf16 st -> soft_rng_step n st = (run_rounds n st, adv Legacy 1 st).
Proof.
  intros H. pose proof (soft_gen_ks_block_eq Legacy n st H) as E.
  unfold soft_gen_ks_block in E. cbv zeta in E. cbn [counter_size Nat.eqb] in E.
  unfold soft_rng_step. cbv zeta. injection E as E. rewrite E. reflexivity.
Qed.

Lemma words_from_S v n k st : wf16 st ->
  words_from v n (S k) st = run_rounds n st ++ words_from v n k (adv v 1 st).
Proof.
  intros H. unfold words_from. cbn [seq flat_map]. change (N.of_nat 0) with 0. rewrite adv_0 by assumption.
  f_equal. rewrite <- seq_shift, flat_map_concat_map, map_map, <- flat_map_concat_map.
  apply flat_map_ext. intros i. rewrite adv_add by assumption. repeat f_equal. lia.
Qed.

Lemma soft_rng_eq n st : wf16 st -> soft_gen_ks_blocks n st = (words_from Legacy n 4 st, adv Legacy 4 st).
Proof.
  intros H. unfold soft_gen_ks_blocks. change 4 with (N.of_nat 4). generalize 4%nat as k. intros k.
  revert st H; induction k as [|k IH]; intros st H.
  - cbn [gen_ones]. change (N.of_nat 0) with 0. rewrite adv_0 by assumption. reflexivity.
  - cbn [gen_ones]. rewrite soft_rng_step_eq, IH by (try apply adv_wf; assumption).
    rewrite words_from_S, adv_add by assumption. repeat f_equal. lia.
Qed.

Lemma words_from_length v n k st : wf16 st -> length (words_from v n k st) = (16 * k)%nat.
Proof.
  revert st; induction k as [|k IH]; intros st H; [reflexivity|].
  rewrite words_from_S, app_length, IH by (try apply adv_wf; assumption).
  pose proof (run_rounds_wf n st H) as [Hl _]. lia.
Qed.

Lemma words_from_wf v n k st : wf16 st -> words (words_from v n k st).
Proof.
  revert st; induction k as [|k IH]; intros st H; [constructor|].
  rewrite words_from_S by assumption. apply Forall_app. split; [apply run_rounds_wf; assumption|].
  apply IH, adv_wf. assumption.
Qed.

Lemma generate_ok c p n st : wf16 st ->
  generate c p Legacy n st = (words_from Legacy n 4 st, adv Legacy 4 st).
Proof.
  intros H. unfold generate. cbv zeta.
  rewrite soft_rng_eq, avx2_rng_legacy, sse2_rng_legacy, neon_rng_eq by assumption.
  destruct (c_backend c), (c_target c), (has_avx2 p), (has_sse2 p); reflexivity.
Qed.

(** ** The keystream of a constructed cipher *)
Lemma firstn_app_len {A} (a b : list A) n : length a = n -> firstn n (a ++ b) = a.
Proof. intros <-. rewrite firstn_app, Nat.sub_diag, firstn_all. cbn. apply app_nil_r. Qed.
Lemma skipn_app_len {A} (a b : list A) n : length a = n -> skipn n (a ++ b) = b.
Proof. intros <-. rewrite skipn_app, Nat.sub_diag, skipn_all. reflexivity. Qed.

Lemma adv_mk_state v key iv c k : length key = 32%nat ->
  adv v k (mk_state v key iv c) = mk_state v key iv (c + k).
Proof.
  intros Hk. unfold mk_state. pose proof (words_of_bytes_length 8 key Hk) as Hw.
  destruct (words_of_bytes key) as [|k0 [|k1 [|k2 [|k3 [|k4 [|k5 [|k6 [|k7 [|]]]]]]]]]; try discriminate Hw.
  destruct v; unfold adv, ctr64, CONSTANTS, ctr_words, get; cbn [app upd nth].
  - rewrite N.add_mod_idemp_l by discriminate. reflexivity.
  - replace (c mod M32 + M32 * (c / M32 mod M32)) with (c mod M64) by lia.
    rewrite N.add_mod_idemp_l by discriminate.
    replace (((c + k) mod M64) mod M32) with ((c + k) mod M32) by lia.
    replace ((c + k) mod M64 / M32) with (((c + k) / M32) mod M32) by lia. reflexivity.
Qed.

Lemma blocks_from_spec v n k key iv c : length key = 32%nat -> length iv = nonce_len v ->
  bytes key -> bytes iv ->
  blocks_from v n k (mk_state v key iv c)
  = flat_map (fun i => spec_block v n key (c + N.of_nat i) iv) (seq 0 k).
Proof.
  intros Hk Hi Bk Bi. unfold blocks_from. apply flat_map_ext. intros i.
  rewrite adv_mk_state by assumption. apply block_spec; assumption.
Qed.

(** ** HChaCha and XChaCha *)
Definition hstate (key input : list N) : list N :=
  CONSTANTS ++ words_of_bytes key ++ words_of_bytes input.
Lemma hstate_wf key input : length key = 32%nat -> length input = 16%nat -> bytes key -> bytes input ->
  wf16 (hstate key input).
Proof.
  intros Hk Hi Bk Bi. unfold hstate. split.
  - rewrite !app_length, (words_of_bytes_length 8 key Hk), (words_of_bytes_length 4 input Hi). reflexivity.
  - unfold words. rewrite !Forall_app. repeat split.
    + apply CONSTANTS_words. + apply words_of_bytes_wf; assumption. + apply words_of_bytes_wf; assumption.
Qed.

Lemma hchacha_eq n key input : length key = 32%nat -> length input = 16%nat ->
  hchacha n key input =
  let s := iter_n n double_round (hstate key input) in
  bytes_of_words (firstn 4 s ++ skipn 12 s).
Proof.
  intros Hk Hi. unfold hchacha, hstate. cbv zeta.
  pose proof (words_of_bytes_length 8 key Hk) as Hkw. pose proof (words_of_bytes_length 4 input Hi) as Hiw.
  destruct (words_of_bytes key) as [|k0 [|k1 [|k2 [|k3 [|k4 [|k5 [|k6 [|k7 [|]]]]]]]]]; try discriminate Hkw.
  destruct (words_of_bytes input) as [|i0 [|i1 [|i2 [|i3 [|]]]]]; try discriminate Hiw.
  cbn [CONSTANTS repeat app skipn firstn slice zip_assign].
  rewrite bytes_of_words_app. reflexivity.
Qed.

Lemma hchacha_spec n key input : length key = 32%nat -> length input = 16%nat -> bytes key -> bytes input ->
  hchacha n key input = sp_hchacha n key input.
Proof.
  intros Hk Hi Bk Bi. rewrite hchacha_eq by assumption. cbv zeta.
  rewrite iter_double_round_spec by (apply hstate_wf; assumption).
  unfold hstate, sp_hchacha. rewrite (words_of_bytes_spec 8 key Hk), (words_of_bytes_spec 4 input Hi), CONSTANTS_spec.
  apply bytes_of_words_spec.
Qed.

Lemma hchacha_length n key input : length key = 32%nat -> length input = 16%nat -> bytes key -> bytes input ->
  length (hchacha n key input) = 32%nat.
Proof.
  intros Hk Hi Bk Bi. rewrite hchacha_eq by assumption. cbv zeta.
  pose proof (iter_double_round_wf n _ (hstate_wf key input Hk Hi Bk Bi)) as [Hl _].
  rewrite bytes_of_words_length, app_length, firstn_length, skipn_length, Hl. reflexivity.
Qed.
Lemma hchacha_bytes n key input : length key = 32%nat -> length input = 16%nat -> bytes (hchacha n key input).
Proof. intros Hk Hi. rewrite hchacha_eq by assumption. apply bytes_of_words_bytes. Qed.

Lemma bytes_firstn n l : bytes l -> bytes (firstn n l).
Proof. intros H. unfold bytes in *. rewrite <- (firstn_skipn n l) in H. apply Forall_app in H. tauto. Qed.
Lemma bytes_skipn n l : bytes l -> bytes (skipn n l).
Proof. intros H. unfold bytes in *. rewrite <- (firstn_skipn n l) in H. apply Forall_app in H. tauto. Qed.

Definition xnonce (iv : list N) : list N := repeat 0 4 ++ skipn 16 iv.
Lemma xchacha_new_ok n key iv : length key = 32%nat -> length iv = 24%nat -> bytes key -> bytes iv ->
  xchacha_new n key iv = Ok (mk_state Ietf (hchacha n key (firstn 16 iv)) (xnonce iv) 0).
Proof.
  intros Hk Hi Bk Bi. unfold xchacha_new. cbv zeta.
  rewrite firstn_length, !skipn_length, Hi. cbn [Nat.min Nat.sub Nat.eqb length repeat assert_ bind].
  apply new_internal_ok.
  - apply hchacha_length; auto using bytes_firstn. rewrite firstn_length, Hi. reflexivity.
  - change (length (xnonce iv) = 12%nat). unfold xnonce. rewrite app_length, skipn_length, repeat_length, Hi. reflexivity.
Qed.

Lemma xchacha_blocks n k key iv c : length key = 32%nat -> length iv = 24%nat -> bytes key -> bytes iv ->
  blocks_from Ietf n k (mk_state Ietf (hchacha n key (firstn 16 iv)) (xnonce iv) c)
  = flat_map (fun i => sp_xchacha_block n key (c + N.of_nat i) iv) (seq 0 k).
Proof.
  intros Hk Hi Bk Bi. assert (H16 : length (firstn 16 iv) = 16%nat) by (rewrite firstn_length, Hi; reflexivity).
  rewrite blocks_from_spec.
  - rewrite hchacha_spec by auto using bytes_firstn. reflexivity.
  - apply hchacha_length; auto using bytes_firstn.
  - unfold xnonce. rewrite app_length, skipn_length, Hi. reflexivity.
  - apply hchacha_bytes; assumption.
  - unfold xnonce, bytes. apply Forall_app. split; [repeat constructor | apply bytes_skipn; assumption].
Qed.
