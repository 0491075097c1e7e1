(** AVX2 backend = portable backend, for every closure. *)
From Verif Require Import Word WordLemmas Res Simd ChaChaCore ChaChaBackend ChaChaSoft ChaChaProofs SimdProofs
  ChaChaAvx2 ChaChaSse2 ChaChaSse2Proofs.
From Coq Require Import ZArith Lia ZifyBool ZifyNat ZifyN.
Ltac Zify.zify_post_hook ::= Z.div_mod_to_equations.

Definition m16 : m128 := mm_set_epi64x 0x0d0c0f0e09080b0a 0x0504070601000302.
Definition m8 : m128 := mm_set_epi64x 0x0e0d0c0f0a09080b 0x0605040702010003.
Lemma rot16_m v : length v = 4%nat -> mm_shuffle_epi8 v m16 = vrot 16 v.
Proof. intros H. apply shuffle8_rot16; [assumption | reflexivity]. Qed.
Lemma rot8_m v : length v = 4%nat -> mm_shuffle_epi8 v m8 = vrot 8 v.
Proof. intros H. apply shuffle8_rot8; [assumption | reflexivity]. Qed.

(** One entry of [vs]. *)
Definition axr1 (e : list m256) : list m256 := nth 0 (avx2_add_xor_rot [e]) [].
Definition dqr1 (e : list m256) : list m256 := nth 0 (avx2_double_quarter_round [e]) [].
Lemma avx2_dqr_map vs : avx2_double_quarter_round vs = map dqr1 vs.
Proof.
  unfold avx2_double_quarter_round, dqr1, avx2_double_quarter_round, avx2_cols_to_rows, avx2_rows_to_cols, avx2_add_xor_rot.
  cbv zeta. rewrite !map_map. apply map_ext. intros e. cbn [map nth]. reflexivity.
Qed.

Ltac len4 := repeat first [assumption | rewrite map2_length | rewrite vrot_length | congruence].

Transparent canon_axr.
Lemma avx2_axr_pair e e' : e4 e -> e4 e' ->
  avx2_add_xor_rot [T [e; e']] = [T [canon_axr e; canon_axr e']].
Proof.
  intros He He'. destruct (e4_inv e He) as (a & b & c & d & -> & Ha & Hb & Hc & Hd).
  destruct (e4_inv e' He') as (a' & b' & c' & d' & -> & Ha' & Hb' & Hc' & Hd').
  unfold avx2_add_xor_rot, canon_axr, T. cbv zeta. cbn [map nth on4].
  unfold mm256_shuffle_epi8, mm256_xor, mm256_add_epi32, mm256_slli_epi32, mm256_srli_epi32.
  change rol16_mask with [m16; m16]. change rol8_mask with [m8; m8].
  cbn [map map2]. rewrite !mm_rot12. rewrite !rot16_m by (unfold mm_xor, mm_add_epi32; len4).
  rewrite !mm_rot7. rewrite !rot8_m by (unfold mm_xor, mm_add_epi32; len4).
  reflexivity.
Qed.
Opaque canon_axr.

Lemma canon_axr_e4 e : e4 e -> e4 (canon_axr e).
Proof.
  intros He. destruct (e4_inv e He) as (a & b & c & d & -> & Ha & Hb & Hc & Hd).
  destr4 a Ha. destr4 b Hb. destr4 c Hc. destr4 d Hd. rewrite canon_axr_eq.
  split; [reflexivity|]. repeat constructor.
Qed.
Lemma x86_r2c_e4 e : e4 e -> e4 (x86_r2c e).
Proof.
  intros He. destruct (e4_inv e He) as (a & b & c & d & -> & Ha & Hb & Hc & Hd).
  split; [reflexivity|]. repeat constructor; assumption.
Qed.

Lemma avx2_r2c_pair e e' : e4 e -> e4 e' -> avx2_rows_to_cols [T [e; e']] = [T [x86_r2c e; x86_r2c e']].
Proof.
  intros He He'. destruct (e4_inv e He) as (a & b & c & d & -> & _).
  destruct (e4_inv e' He') as (a' & b' & c' & d' & -> & _). reflexivity.
Qed.
Lemma avx2_c2r_pair e e' : e4 e -> e4 e' -> avx2_cols_to_rows [T [e; e']] = [T [x86_c2r e; x86_c2r e']].
Proof.
  intros He He'. destruct (e4_inv e He) as (a & b & c & d & -> & _).
  destruct (e4_inv e' He') as (a' & b' & c' & d' & -> & _). reflexivity.
Qed.

Lemma dqr1_cols s t : length s = 16%nat -> length t = 16%nat ->
  dqr1 (cols [s; t]) = cols [double_round s; double_round t].
Proof.
  intros Hs Ht. rewrite !cols_T. cbn [map]. rewrite <- !x86_dqr_rows by assumption.
  pose proof (rows_e4 s Hs) as Es. pose proof (rows_e4 t Ht) as Et.
  unfold dqr1, avx2_double_quarter_round.
  rewrite avx2_axr_pair, avx2_r2c_pair, avx2_axr_pair, avx2_c2r_pair by auto using canon_axr_e4, x86_r2c_e4.
  reflexivity.
Qed.

Lemma iter_dqr1 n s t : length s = 16%nat -> length t = 16%nat ->
  iter_n n dqr1 (cols [s; t]) = cols [iter_n n double_round s; iter_n n double_round t].
Proof.
  intros Hs Ht. rewrite (iter_cols double_round dqr1 (fun l => exists s t, l = [s; t] /\ length s = 16%nat /\ length t = 16%nat)).
  - reflexivity.
  - intros l (x & y & -> & Hx & Hy). apply dqr1_cols; assumption.
  - intros l (x & y & -> & Hx & Hy). exists (double_round x), (double_round y).
    split; [reflexivity|]. split; apply double_round_wf; assumption.
  - eauto.
Qed.

(** Feed-forward of one entry. *)
Lemma ff_pair n s t (v : list m256) c : length s = 16%nat -> length t = 16%nat ->
  cols [s; t] = [nth 0 v []; nth 1 v []; nth 2 v []; c] ->
  forall x y, x = iter_n n double_round s -> y = iter_n n double_round t ->
  upd (fold_left (fun e j => upd e j (mm256_add_epi32 (nth j e []) (nth j v []))) (seq 0 3) (cols [x; y])) 3
      (mm256_add_epi32 (nth 3 (fold_left (fun e j => upd e j (mm256_add_epi32 (nth j e []) (nth j v []))) (seq 0 3) (cols [x; y])) []) c)
  = cols [run_rounds n s; run_rounds n t].
Proof.
  intros Hs Ht Hc x y Hx Hy. unfold cols in Hc. cbn [map] in Hc. injection Hc as E0 E1 E2 E3.
  cbn [fold_left seq]. rewrite <- E0, <- E1, <- E2, <- E3.
  cbn [cols map upd nth]. unfold mm256_add_epi32, mm_add_epi32. cbn [map2]. subst x y.
  rewrite !ff_r0, !ff_r1, !ff_r2, !ff_r3 by assumption. reflexivity.
Qed.

Definition avx2_regs (v : variant) (st : list N) : avx2_st :=
  {| avx2_v := [[r0 st; r0 st]; [r1 st; r1 st]; [r2 st; r2 st]];
     avx2_ctr := [[r3 (adv v 0 st); r3 (adv v 1 st)]; [r3 (adv v 2 st); r3 (adv v 3 st)]] |}.

Lemma avx2_rounds_eq v n st : wf16 st ->
  avx2_rounds n (avx2_v (avx2_regs v st)) (avx2_ctr (avx2_regs v st)) =
  [cols [run_rounds n (adv v 0 st); run_rounds n (adv v 1 st)];
   cols [run_rounds n (adv v 2 st); run_rounds n (adv v 3 st)]].
Proof.
  intros Hwf. assert (Hl : length st = 16%nat) by apply Hwf.
  assert (E : forall k, length (adv v k st) = 16%nat) by (intros; rewrite adv_length; assumption).
  assert (C : forall j k, cols [adv v j st; adv v k st]
     = [[r0 st; r0 st]; [r1 st; r1 st]; [r2 st; r2 st]; [r3 (adv v j st); r3 (adv v k st)]]).
  { intros j k. unfold cols. cbn [map]. rewrite !r0_adv, !r1_adv, !r2_adv by assumption. reflexivity. }
  unfold avx2_rounds, avx2_N. cbv zeta.
  match goal with |- context [iter_n n avx2_double_quarter_round ?l] =>
    assert (Ei : l = map (fun p => cols [adv v (fst p) st; adv v (snd p) st]) [(0, 1); (2, 3)]) end.
  { cbn [seq map fst snd]. rewrite !C. reflexivity. }
  rewrite Ei. clear Ei. rewrite (iter_n_map _ dqr1) by apply avx2_dqr_map. cbn [map fst snd].
  rewrite !iter_dqr1 by apply E.
  remember (iter_n n double_round (adv v 0 st)) as t0 eqn:E0.
  remember (iter_n n double_round (adv v 1 st)) as t1 eqn:E1.
  remember (iter_n n double_round (adv v 2 st)) as t2 eqn:E2.
  remember (iter_n n double_round (adv v 3 st)) as t3 eqn:E3.
  pose proof (ff_pair n (adv v 0 st) (adv v 1 st) (avx2_v (avx2_regs v st)) _ (E _) (E _) (C _ _) _ _ E0 E1) as F1.
  pose proof (ff_pair n (adv v 2 st) (adv v 3 st) (avx2_v (avx2_regs v st)) _ (E _) (E _) (C _ _) _ _ E2 E3) as F2.
  rewrite <- F1, <- F2. cbn [seq fold_left]. reflexivity.
Qed.

(** Counter vectors. *)
Lemma avx2_add_ctr_eq v s t hi lo : wf16 s -> wf16 t ->
  avx2_add_ctr v [r3 s; r3 t] hi lo = [r3 (adv v lo s); r3 (adv v hi t)].
Proof.
  intros Hs Ht. rewrite <- !sse2_add_ctr_r3 by assumption. destruct v; reflexivity.
Qed.

Lemma avx2_step_ctr v k st : wf16 st ->
  {| avx2_v := avx2_v (avx2_regs v st); avx2_ctr := map (fun c => avx2_add_ctr v c k k) (avx2_ctr (avx2_regs v st)) |}
  = avx2_regs v (adv v k st).
Proof.
  intros H. assert (Hl : length st = 16%nat) by apply H. unfold avx2_regs. cbn [avx2_v avx2_ctr map].
  rewrite !avx2_add_ctr_eq by (apply adv_wf; assumption). rewrite !adv_add by assumption.
  rewrite r0_adv, r1_adv, r2_adv by assumption.
  rewrite (N.add_comm k 0), (N.add_comm k 1), (N.add_comm k 2), (N.add_comm k 3). reflexivity.
Qed.

Lemma avx2_load_eq v st : wf16 st -> avx2_load v st = avx2_regs v st.
Proof.
  intros H. unfold avx2_load, avx2_regs, avx2_N, avx2_load_v. cbn [avx2_ctr_loop]. unfold mm256_broadcast.
  change (mm_loadu st 3) with (r3 st). rewrite avx2_add_ctr_eq by assumption.
  rewrite avx2_add_ctr_eq by (apply adv_wf; assumption). rewrite !adv_add by assumption. reflexivity.
Qed.

Lemma even_rows s t : length s = 16%nat ->
  flat_map (fun i => mm_storeu (nth (2 * i) (concat (cols [s; t])) [])) (seq 0 4) = bytes_of_words s.
Proof. intros H. rewrite <- store_rows by assumption. reflexivity. Qed.
Lemma slots_rows s t : avx2_store_slots (cols [s; t]) = rows s ++ rows t.
Proof. reflexivity. Qed.
Lemma flat_store_rows s : length s = 16%nat -> flat_map mm_storeu (rows s) = bytes_of_words s.
Proof. intros H. rewrite <- store_rows by assumption. reflexivity. Qed.

Lemma avx2_one_ok v n st : wf16 st ->
  avx2_gen_ks_block v n (avx2_regs v st) = (blocks_from v n 1 st, avx2_regs v (adv v 1 st)).
Proof.
  intros H. unfold avx2_gen_ks_block. cbv zeta. rewrite avx2_rounds_eq by assumption.
  rewrite avx2_step_ctr by assumption. cbn [nth]. rewrite even_rows.
  - rewrite adv_0, blocks_from_1 by assumption. reflexivity.
  - apply run_rounds_length. rewrite adv_length. apply H.
Qed.

Lemma avx2_par_ok v n st : wf16 st ->
  avx2_gen_par_ks_blocks v n (avx2_regs v st) = (blocks_from v n 4 st, avx2_regs v (adv v 4 st)).
Proof.
  intros H. assert (E : forall k, length (run_rounds n (adv v k st)) = 16%nat).
  { intros k. apply run_rounds_length. rewrite adv_length. apply H. }
  unfold avx2_gen_par_ks_blocks. cbv zeta. rewrite avx2_rounds_eq by assumption.
  change (N.of_nat avx2_PAR_BLOCKS) with 4. rewrite avx2_step_ctr by assumption. f_equal.
  unfold blocks_from. cbn [seq flat_map N.of_nat Pos.of_succ_nat Pos.succ].
  rewrite !slots_rows, !flat_map_app, !flat_store_rows by apply E. rewrite !app_nil_r, <- !app_assoc. reflexivity.
Qed.

Lemma avx2_inner_ok v n f st : wf16 st -> forallb (req_ok 4) f = true ->
  avx2_inner v n f st = Ok (blocks_from v n (reqs_blocks 4 f) st, adv v (N.of_nat (reqs_blocks 4 f)) st).
Proof.
  intros Hwf Hok. unfold avx2_inner. rewrite avx2_load_eq by assumption.
  set (R := fun b st => b = avx2_regs v st).
  assert (Hone : forall b st, wf16 st -> R b st ->
    exists b', gen_one (avx2_backend v n) b = (blocks_from v n 1 st, b') /\ R b' (adv v 1 st)).
  { intros b s Hs ->. eexists. split; [apply avx2_one_ok; assumption|reflexivity]. }
  destruct (run_reqs_refines (avx2_backend v n) v n R Hone) with (l := f) (b := avx2_regs v st) (st := st)
    as [b' [E HR]]; try assumption.
  - intros b s Hs ->. eexists. split; [apply avx2_par_ok; assumption|reflexivity].
  - intros b s k Hs HR Hk. apply (default_tail_refines (avx2_backend v n) v n R Hone); assumption.
  - reflexivity.
  - rewrite E. cbn [bind par_blocks avx2_backend]. unfold R in HR. rewrite HR.
    change (par_blocks (avx2_backend v n)) with 4%nat. unfold avx2_PAR_BLOCKS.
    do 2 f_equal. pose proof (store_ctr v (N.of_nat (reqs_blocks 4 f)) st (proj1 Hwf)) as Hs.
    cbn [avx2_regs avx2_ctr nth]. rewrite adv_0 by (apply adv_wf; assumption).
    assert (Hr : forall i c c', (i < 4)%nat -> length c = 4%nat -> mm256_extract_epi32 [c; c'] i = get c i).
    { intros i c c' Hi Hc. unfold mm256_extract_epi32, get. cbn [concat]. apply app_nth1. lia. }
    assert (Hr3 : forall s, length s = 16%nat -> length (r3 s) = 4%nat) by (intros s Hs'; destr16 s Hs'; reflexivity).
    rewrite !Hr by first [lia | apply Hr3; rewrite adv_length; apply Hwf].
    destruct v; exact Hs.
Qed.

Lemma avx2_rng_legacy n st : wf16 st ->
  avx2_rng_inner n st = (words_from Legacy n 4 st, adv Legacy 4 st).
Proof.
  intros H. assert (E : forall k, length (run_rounds n (adv Legacy k st)) = 16%nat).
  { intros k. apply run_rounds_length. rewrite adv_length. apply H. }
  unfold avx2_rng_inner. cbv zeta.
  change (fun c => mm256_add_epi64 c (mm256_set_epi64x 0 2 0 2)) with (fun c => avx2_add_ctr Legacy c 2 2).
  change (mm256_add_epi64 ?c (mm256_set_epi64x 0 1 0 0)) with (avx2_add_ctr Legacy c 1 0).
  match goal with |- context [avx2_rounds n (avx2_v ?s) _] => change s with (avx2_load Legacy st) end.
  rewrite avx2_load_eq, avx2_rounds_eq by assumption. f_equal.
  - unfold words_from. cbn [seq flat_map N.of_nat Pos.of_succ_nat Pos.succ].
    rewrite !slots_rows, !concat_app, !rows_concat by apply E. rewrite !app_nil_r, <- !app_assoc. reflexivity.
  - change (N.of_nat avx2_PAR_BLOCKS) with 4.
    change (fun c => mm256_add_epi64 c (mm256_set_epi64x 0 4 0 4)) with (fun c => avx2_add_ctr Legacy c 4 4).
    cbn [avx2_regs avx2_ctr map nth]. rewrite avx2_add_ctr_eq, !adv_add by (try apply adv_wf; assumption).
    change (0 + 4) with 4. pose proof (store_ctr Legacy 4 st (proj1 H)) as Hs. cbn beta iota in Hs.
    set (s4 := adv Legacy 4 st) in *. assert (L4 : length s4 = 16%nat) by (unfold s4; rewrite adv_length; apply H).
    etransitivity; [|exact Hs]. clear Hs. clearbody s4. destr16 s4 L4. reflexivity.
Qed.
