(** NEON backend = portable backend, for every closure. *)
From Verif Require Import Word WordLemmas Res Simd ChaChaCore ChaChaBackend ChaChaSoft ChaChaProofs SimdProofs
  ChaChaNeon ChaChaSse2 ChaChaSse2Proofs ChaChaAvx2Proofs ChaChaAvx512Proofs.
From Coq Require Import ZArith Lia ZifyBool ZifyNat ZifyN.
Ltac Zify.zify_post_hook ::= Z.div_mod_to_equations.

Lemma neon_rot v r : neon_rotate_left v r = vrot r v.
Proof. unfold neon_rotate_left, vorrq_u32, vshlq_n_u32, vshrq_n_u32, vrot. rewrite map2_map_map. reflexivity. Qed.
Lemma neon_rot16 v : neon_rotate_left_16 v = vrot 16 v.
Proof.
  unfold neon_rotate_left_16. induction v as [|x v IH]; [reflexivity|].
  change (u16s (x :: v)) with (x mod 65536 :: (x / 65536) mod 65536 :: u16s v).
  cbn [vrev32q_u16 of_u16s vrot map]. rewrite IH, half_rot16. reflexivity.
Qed.
Lemma neon_rot8 v : length v = 4%nat -> neon_rotate_left_8 v = vrot 8 v.
Proof.
  intros H. destr4 v H. unfold neon_rotate_left_8, vqtbl1q_u8. cbn [map].
  change (3 <? 16) with true. change (0 <? 16) with true. change (1 <? 16) with true. change (2 <? 16) with true.
  change (7 <? 16) with true. change (4 <? 16) with true. change (5 <? 16) with true. change (6 <? 16) with true.
  change (11 <? 16) with true. change (8 <? 16) with true. change (9 <? 16) with true. change (10 <? 16) with true.
  change (15 <? 16) with true. change (12 <? 16) with true. change (13 <? 16) with true. change (14 <? 16) with true.
  cbv iota. unfold bytes_of_words. cbn [flat_map to_le app].
  repeat match goal with |- context [N.to_nat ?a] =>
    let b := eval vm_compute in (N.to_nat a) in change (N.to_nat a) with b end.
  unfold get. cbn [nth words_of_bytes from_le]. rewrite !byte_rot8. reflexivity.
Qed.

Transparent canon_axr.
Lemma neon_axr e : e4 e -> neon_add_xor_rot [e] = [canon_axr e].
Proof.
  intros He. destruct (e4_inv e He) as (a & b & c & d & -> & Ha & Hb & Hc & Hd).
  unfold neon_add_xor_rot, canon_axr. cbn [map on4]. cbv zeta.
  rewrite !neon_rot16, !neon_rot. rewrite !neon_rot8 by (unfold veorq_u32, vaddq_u32; len4).
  reflexivity.
Qed.
Opaque canon_axr.

Definition neon_dqr1 (e : list m128) : list m128 := nth 0 (neon_double_quarter_round [e]) [].
Lemma neon_dqr_map l : neon_double_quarter_round l = map neon_dqr1 l.
Proof.
  unfold neon_double_quarter_round, neon_dqr1, neon_double_quarter_round, neon_cols_to_rows, neon_rows_to_cols, neon_add_xor_rot.
  rewrite !map_map. apply map_ext. intros e. cbn [map nth]. reflexivity.
Qed.

Lemma neon_dqr1_rows st : length st = 16%nat -> neon_dqr1 (rows st) = rows (double_round st).
Proof.
  intros H. rewrite <- arm_dqr_rows by assumption.
  unfold neon_dqr1, neon_double_quarter_round. rewrite neon_axr by (apply rows_e4; assumption).
  unfold arm_dqr. unfold neon_rows_to_cols at 1. cbn [map].
  rewrite neon_axr.
  - reflexivity.
  - pose proof (canon_axr_e4 _ (rows_e4 st H)) as He.
    destruct (e4_inv _ He) as (a & b & c & d & -> & Ha & Hb & Hc & Hd).
    destr4 a Ha. destr4 b Hb. destr4 c Hc. destr4 d Hd.
    split; [reflexivity|]. repeat constructor.
Qed.

Lemma neon_add_r3 v k st : wf16 st -> k < M32 -> neon_add_counter v (r3 st) [k; 0; 0; 0] = r3 (adv v k st).
Proof.
  intros H Hk. rewrite <- sse2_add_ctr_r3 by assumption. destruct v; unfold neon_add_counter, sse2_add_ctr.
  - unfold mm_set_epi32, mm_add_epi32. rewrite (N.mod_small k) by assumption. reflexivity.
  - unfold mm_set_epi64x. rewrite (N.mod_small k), (N.div_small k) by assumption. reflexivity.
Qed.

Definition neon_regs (st : list N) : neon_st :=
  {| neon_state := rows st; neon_ctrs := neon_ctrs (neon_new st) |}.

Lemma neon_ctrs_nth st i : (i < 8)%nat -> nth i (neon_ctrs (neon_regs st)) [] = [N.of_nat (i + 1); 0; 0; 0].
Proof. intros H. do 8 (destruct i as [|i]; [reflexivity|]). lia. Qed.

Lemma neon_init_eq v k st : wf16 st -> (0 < k <= 8)%nat ->
  neon_init_blocks v k (neon_regs st) = map (fun i => rows (adv v (N.of_nat i) st)) (seq 0 k).
Proof.
  intros H Hk. assert (Hl : length st = 16%nat) by apply H.
  destruct k as [|k]; [lia|]. unfold neon_init_blocks. replace (S k - 1)%nat with k by lia.
  cbn [seq map]. f_equal.
  - change (N.of_nat 0) with 0. rewrite adv_0 by assumption. reflexivity.
  - rewrite <- seq_shift, map_map. apply map_ext_in. intros i Hi. apply in_seq in Hi.
    rewrite neon_ctrs_nth by lia. rewrite rows_adv by assumption.
    cbn [neon_regs neon_state nth rows]. rewrite neon_add_r3 by (try assumption; lia).
    replace (i + 1)%nat with (S i) by lia. reflexivity.
Qed.

Lemma neon_finish_eq v n st i : wf16 st -> (i < 8)%nat ->
  neon_finish_block v (neon_regs st) i (rows (iter_n n double_round (adv v (N.of_nat i) st)))
  = rows (run_rounds n (adv v (N.of_nat i) st)).
Proof.
  intros H Hi. assert (Hl : length st = 16%nat) by apply H.
  assert (E : forall k, length (adv v k st) = 16%nat) by (intros; rewrite adv_length; assumption).
  assert (G : forall k t, t = iter_n n double_round (adv v k st) ->
    [map2 add32 (r0 t) (r0 st); map2 add32 (r1 t) (r1 st);
     map2 add32 (r2 t) (r2 st); map2 add32 (r3 t) (r3 (adv v k st))]
    = rows (run_rounds n (adv v k st))).
  { intros k t ->. rewrite <- (r0_adv v k st), <- (r1_adv v k st), <- (r2_adv v k st) by assumption.
    rewrite ff_r0, ff_r1, ff_r2, ff_r3 by apply E. reflexivity. }
  remember (iter_n n double_round (adv v (N.of_nat i) st)) as t eqn:Et.
  rewrite <- (G _ t Et). unfold neon_finish_block. cbv zeta.
  destruct (Nat.ltb_spec 0 i) as [Hp|Hz].
  - rewrite neon_ctrs_nth by lia. replace (i - 1 + 1)%nat with i by lia.
    cbn [seq fold_left upd nth rows neon_regs neon_state].
    rewrite neon_add_r3 by (try assumption; lia). reflexivity.
  - replace i with 0%nat by lia. change (N.of_nat 0) with 0. rewrite adv_0 by assumption.
    cbn [seq fold_left upd nth rows neon_regs neon_state]. reflexivity.
Qed.

Lemma neon_blocks_eq v n k st : wf16 st -> (0 < k <= 8)%nat ->
  iter_n n neon_double_quarter_round (neon_init_blocks v k (neon_regs st))
  = map (fun i => rows (iter_n n double_round (adv v (N.of_nat i) st))) (seq 0 k).
Proof.
  intros H Hk. rewrite neon_init_eq by assumption. rewrite (iter_n_map _ neon_dqr1) by apply neon_dqr_map.
  apply map_ext. intros i. apply iter_rows; [apply neon_dqr1_rows | rewrite adv_length; apply H].
Qed.

Lemma neon_regs_adv v k rs st : length st = 16%nat -> firstn 3 rs = [r0 st; r1 st; r2 st] -> length rs = 4%nat ->
  {| neon_state := upd rs 3 (r3 (adv v k st)); neon_ctrs := neon_ctrs (neon_new st) |} = neon_regs (adv v k st).
Proof.
  intros Hl Hf Hn. destruct rs as [|a [|b [|c [|d [|]]]]]; cbn in Hn; try discriminate.
  cbn [firstn] in Hf. injection Hf as -> -> ->. unfold neon_regs. rewrite rows_adv by assumption. reflexivity.
Qed.

Lemma neon_par_ok v n st : wf16 st ->
  neon_gen_par_ks_blocks v n (neon_regs st) = (blocks_from v n 8 st, neon_regs (adv v 8 st)).
Proof.
  intros H. assert (Hl : length st = 16%nat) by apply H. unfold neon_gen_par_ks_blocks. cbv zeta.
  rewrite neon_blocks_eq by (try assumption; lia). f_equal.
  - unfold blocks_from. apply flat_map_ext_in'. intros i Hi. apply in_seq in Hi.
    rewrite nth_map_seq by lia. rewrite neon_finish_eq by (try assumption; lia).
    rewrite <- store_rows by (apply run_rounds_length; rewrite adv_length; assumption). reflexivity.
  - rewrite neon_ctrs_nth by lia. change (nth 3 (neon_state (neon_regs st)) []) with (r3 st).
    cbn [Nat.add]. change (N.of_nat 8) with 8. rewrite neon_add_r3 by (try assumption; lia).
    apply (neon_regs_adv v 8 (rows st)); [assumption | reflexivity..].
Qed.

Lemma neon_one_ok v n st : wf16 st ->
  neon_gen_ks_block v n (neon_regs st) = (blocks_from v n 1 st, neon_regs (adv v 1 st)).
Proof.
  intros H. assert (Hl : length st = 16%nat) by apply H. unfold neon_gen_ks_block. cbv zeta.
  rewrite neon_par_ok by assumption. f_equal.
  - change (blocks_from v n 8 st) with (blocks_from v n (1 + 7) st). rewrite blocks_from_add by assumption.
    rewrite firstn_app. replace (64 - length (blocks_from v n 1 st))%nat with 0%nat
      by (rewrite blocks_from_length by assumption; lia).
    rewrite firstn_O, app_nil_r. apply firstn_all2. rewrite blocks_from_length by assumption. lia.
  - change (nth 3 (neon_state (neon_regs st)) []) with (r3 st). unfold vld1q_u32. cbn [firstn].
    rewrite neon_add_r3 by (try assumption; lia).
    change (neon_ctrs (neon_regs (adv v 8 st))) with (neon_ctrs (neon_new st)).
    apply (neon_regs_adv v 1 (rows (adv v 8 st))); [assumption | |].
    + cbn [firstn rows]. rewrite r0_adv, r1_adv, r2_adv by assumption. reflexivity.
    + reflexivity.
Qed.

Lemma neon_inner_ok v n f st : wf16 st -> forallb (req_ok 8) f = true ->
  neon_inner v n f st = Ok (blocks_from v n (reqs_blocks 8 f) st, adv v (N.of_nat (reqs_blocks 8 f)) st).
Proof.
  intros Hwf Hok. unfold neon_inner. change (neon_new st) with (neon_regs st).
  set (R := fun b st => b = neon_regs st).
  assert (Hone : forall b st, wf16 st -> R b st ->
    exists b', gen_one (neon_backend v n) b = (blocks_from v n 1 st, b') /\ R b' (adv v 1 st)).
  { intros b s Hs ->. eexists. split; [apply neon_one_ok; assumption|reflexivity]. }
  destruct (run_reqs_refines (neon_backend v n) v n R Hone) with (l := f) (b := neon_regs st) (st := st)
    as [b' [E HR]]; try assumption.
  - intros b s Hs ->. eexists. split; [apply neon_par_ok; assumption|reflexivity].
  - intros b s k Hs HR Hk. apply (default_tail_refines (neon_backend v n) v n R Hone); assumption.
  - reflexivity.
  - rewrite E. cbn [bind par_blocks neon_backend]. unfold R in HR. rewrite HR.
    change (par_blocks (neon_backend v n)) with 8%nat.
    do 2 f_equal. cbn [neon_regs neon_state rows nth].
    destruct v; [apply (store_ctr Ietf) | apply (store_row3 Legacy)]; apply Hwf.
Qed.

Lemma neon_rng_eq v n st : wf16 st ->
  neon_rng_inner v n st = (words_from v n 4 st, adv v 4 st).
Proof.
  intros H. assert (Hl : length st = 16%nat) by apply H. unfold neon_rng_inner. cbv zeta.
  change (neon_new st) with (neon_regs st).
  rewrite neon_blocks_eq by (try assumption; lia). f_equal.
  - unfold words_from. apply flat_map_ext_in'. intros i Hi. apply in_seq in Hi.
    rewrite nth_map_seq by lia. rewrite neon_finish_eq by (try assumption; lia).
    cbn [flat_map seq nth rows]. rewrite app_nil_r. apply rows_words.
    apply run_rounds_length. rewrite adv_length. assumption.
  - rewrite neon_ctrs_nth by lia. cbn [neon_regs neon_state rows nth Nat.add]. change (N.of_nat 4) with 4.
    rewrite neon_add_r3 by (try assumption; lia). apply store_row3. assumption.
Qed.
