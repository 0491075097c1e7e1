(** SSE2 backend = portable backend, for every closure. *)
From Verif Require Import Word WordLemmas Res Simd ChaChaCore ChaChaBackend ChaChaSoft ChaChaProofs SimdProofs ChaChaSse2.
From Coq Require Import ZArith Lia ZifyBool ZifyNat ZifyN.
Ltac Zify.zify_post_hook ::= Z.div_mod_to_equations.

Transparent canon_axr.
Lemma sse2_axr_eq l : sse2_add_xor_rot l = map canon_axr l.
Proof.
  unfold sse2_add_xor_rot, canon_axr. apply map_ext. intros e.
  destruct e as [|a [|b [|c [|d [|]]]]]; try reflexivity. cbn [on4]. cbv zeta.
  rewrite !mm_rot16, !mm_rot12, !mm_rot8, !mm_rot7. reflexivity.
Qed.
Opaque canon_axr.
Lemma sse2_r2c_eq l : sse2_rows_to_cols l = map x86_r2c l. Proof. reflexivity. Qed.
Lemma sse2_c2r_eq l : sse2_cols_to_rows l = map x86_c2r l. Proof. reflexivity. Qed.

Lemma sse2_dqr_eq l : sse2_double_quarter_round l = map x86_dqr l.
Proof.
  unfold sse2_double_quarter_round. rewrite !sse2_axr_eq, sse2_r2c_eq, sse2_c2r_eq, !map_map. reflexivity.
Qed.

(** Counter lane addition. *)
Lemma sse2_add_ctr_r3 v k st : wf16 st -> sse2_add_ctr v (r3 st) k = r3 (adv v k st).
Proof.
  intros H. destruct v; unfold sse2_add_ctr.
  - unfold mm_add_epi32, mm_set_epi32. change (0 mod M32) with 0. apply r3_add32. assumption.
  - unfold mm_set_epi64x. change (0 mod M32) with 0. change ((0 / M32) mod M32) with 0.
    change mm_add_epi64 with add64_lanes. apply r3_add64. assumption.
Qed.

Lemma sse2_rounds_eq v n st : wf16 st ->
  sse2_rounds v n (rows st) = map (fun i => rows (run_rounds n (adv v (N.of_nat i) st))) (seq 0 4).
Proof.
  intros Hwf. assert (Hl : length st = 16%nat) by apply Hwf.
  assert (E : forall k, length (adv v k st) = 16%nat) by (intros; rewrite adv_length; assumption).
  unfold sse2_rounds, sse2_PAR_BLOCKS. cbv zeta.
  match goal with |- context [iter_n n sse2_double_quarter_round ?l] =>
    assert (Ei : l = map (fun i => rows (adv v (N.of_nat i) st)) (seq 0 4)) end.
  { cbn [repeat Nat.sub seq fold_left upd nth map]. rewrite !rows_adv by assumption.
    change (N.of_nat 0) with 0. rewrite adv_0 by assumption. cbn [upd nth rows].
    rewrite !sse2_add_ctr_r3 by assumption. reflexivity. }
  rewrite Ei. clear Ei.
  rewrite (iter_n_map _ x86_dqr) by apply sse2_dqr_eq.
  cbn [map seq].
  rewrite !(iter_rows x86_dqr) by first [apply x86_dqr_rows | rewrite adv_length; assumption].
  assert (G : forall k t, t = iter_n n double_round (adv v k st) ->
    [map2 add32 (r0 t) (r0 st); map2 add32 (r1 t) (r1 st);
     map2 add32 (r2 t) (r2 st); map2 add32 (r3 t) (r3 (adv v k st))]
    = rows (run_rounds n (adv v k st))).
  { intros k t ->. rewrite <- (r0_adv v k st), <- (r1_adv v k st), <- (r2_adv v k st) by assumption.
    rewrite ff_r0, ff_r1, ff_r2, ff_r3 by apply E. reflexivity. }
  remember (iter_n n double_round (adv v (N.of_nat 0) st)) as t0 eqn:E0.
  remember (iter_n n double_round (adv v (N.of_nat 1) st)) as t1 eqn:E1.
  remember (iter_n n double_round (adv v (N.of_nat 2) st)) as t2 eqn:E2.
  remember (iter_n n double_round (adv v (N.of_nat 3) st)) as t3 eqn:E3.
  rewrite <- (G _ t0 E0), <- (G _ t1 E1), <- (G _ t2 E2), <- (G _ t3 E3).
  cbn [fold_left upd nth rows]. unfold mm_add_epi32. rewrite !sse2_add_ctr_r3 by assumption. reflexivity.
Qed.

Lemma sse2_load_rows st : sse2_load st = rows st. Proof. reflexivity. Qed.

Lemma sse2_one_ok v n st : wf16 st ->
  sse2_gen_ks_block v n (rows st) = (blocks_from v n 1 st, rows (adv v 1 st)).
Proof.
  intros H. assert (Hl : length st = 16%nat) by apply H. unfold sse2_gen_ks_block. cbv zeta.
  rewrite sse2_rounds_eq by assumption. rewrite nth_map_seq by lia. change (N.of_nat 0) with 0.
  rewrite adv_0 by assumption. rewrite store_rows by (apply run_rounds_length; assumption).
  rewrite blocks_from_1 by assumption. f_equal. rewrite rows_adv by assumption. cbn [upd nth rows].
  rewrite sse2_add_ctr_r3 by assumption. reflexivity.
Qed.

Lemma sse2_par_ok v n st : wf16 st ->
  sse2_gen_par_ks_blocks v n (rows st) = (blocks_from v n 4 st, rows (adv v 4 st)).
Proof.
  intros H. assert (Hl : length st = 16%nat) by apply H. unfold sse2_gen_par_ks_blocks. cbv zeta.
  rewrite sse2_rounds_eq by assumption. f_equal.
  - unfold blocks_from. apply flat_map_ext_in'. intros i Hi. apply in_seq in Hi.
    rewrite nth_map_seq by (unfold sse2_PAR_BLOCKS in *; lia).
    apply store_rows. apply run_rounds_length. rewrite adv_length. assumption.
  - rewrite rows_adv by assumption. cbn [upd nth rows]. rewrite sse2_add_ctr_r3 by assumption. reflexivity.
Qed.

Lemma sse2_inner_ok v n f st : wf16 st -> forallb (req_ok 4) f = true ->
  sse2_inner v n f st = Ok (blocks_from v n (reqs_blocks 4 f) st, adv v (N.of_nat (reqs_blocks 4 f)) st).
Proof.
  intros Hwf Hok. unfold sse2_inner. rewrite sse2_load_rows.
  set (R := fun (b : list m128) st => b = rows st).
  assert (Hone : forall b st, wf16 st -> R b st ->
    exists b', gen_one (sse2_backend v n) b = (blocks_from v n 1 st, b') /\ R b' (adv v 1 st)).
  { intros b s Hs ->. eexists. split; [apply sse2_one_ok; assumption|reflexivity]. }
  destruct (run_reqs_refines (sse2_backend v n) v n R Hone) with (l := f) (b := rows st) (st := st)
    as [b' [E HR]]; try assumption.
  - intros b s Hs ->. eexists. split; [apply sse2_par_ok; assumption|reflexivity].
  - intros b s k Hs HR Hk. apply (default_tail_refines (sse2_backend v n) v n R Hone); assumption.
  - reflexivity.
  - rewrite E. cbn [bind par_blocks sse2_backend]. unfold R in HR. rewrite HR.
    change (par_blocks (sse2_backend v n)) with 4%nat. unfold sse2_PAR_BLOCKS.
    do 2 f_equal. pose proof (store_ctr v (N.of_nat (reqs_blocks 4 f)) st (proj1 Hwf)) as Hs.
    destruct v; exact Hs.
Qed.

Lemma sse2_rng_legacy n st : wf16 st ->
  sse2_rng_inner Legacy n st = (words_from Legacy n 4 st, adv Legacy 4 st).
Proof.
  intros H. assert (Hl : length st = 16%nat) by apply H. unfold sse2_rng_inner. cbv zeta.
  rewrite sse2_load_rows, sse2_rounds_eq by assumption. f_equal.
  - unfold words_from. apply flat_map_ext_in'. intros i Hi. apply in_seq in Hi.
    rewrite nth_map_seq by (unfold sse2_PAR_BLOCKS in *; lia).
    cbn [flat_map seq nth rows]. rewrite app_nil_r. apply rows_words.
    apply run_rounds_length. rewrite adv_length. assumption.
  - cbn [upd nth rows]. change (mm_add_epi64 (r3 st) (mm_set_epi64x 0 (N.of_nat sse2_PAR_BLOCKS)))
      with (sse2_add_ctr Legacy (r3 st) (N.of_nat sse2_PAR_BLOCKS)).
    rewrite sse2_add_ctr_r3 by assumption. apply (store_ctr Legacy). assumption.
Qed.
