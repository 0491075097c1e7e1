(** C62: the NEON backend on big-endian aarch64 (model: [NeonEndian.v]). *)
From Verif Require Import Word WordLemmas Res Hex PropCommon Simd ChaChaCore ChaChaBackend ChaChaSoft ChaChaNeon ChaChaProofs SimdProofs
  ChaChaNeonProofs ChaChaDispatch ChaChaDispatchProofs Memory MemoryProofs PropertiesMemory NeonEndian.
From Coq Require Import ZArith Lia ZifyNat ZifyN.

(** ** Lemmas *)
Lemma native_length be k x : length (native be k x) = k.
Proof. unfold native. destruct be; rewrite ?rev_length; apply to_le_length. Qed.
Lemma u32_round be w t : w < M32 -> u32s_of_mem be (native be 4 w ++ t) = w :: u32s_of_mem be t.
Proof.
  intros H. unfold native. destruct be; cbn [to_le rev app u32s_of_mem]; f_equal; apply (from_to_le4 w H).
Qed.
Lemma u32s_round be l : words l -> u32s_of_mem be (mem_of_u32s be l) = l.
Proof.
  induction 1 as [|w l Hw _ IH]; [reflexivity|]. unfold mem_of_u32s in *. cbn [flat_map]. rewrite u32_round by exact Hw. now rewrite IH.
Qed.
Lemma mem_of_u32s_length be l : length (mem_of_u32s be l) = (4 * length l)%nat.
Proof.
  induction l as [|w l IH]; [reflexivity|]. unfold mem_of_u32s in *. cbn [flat_map]. rewrite app_length, native_length, IH. cbn [length]. lia.
Qed.
Lemma mem_of_u32s_app be a b : mem_of_u32s be (a ++ b) = mem_of_u32s be a ++ mem_of_u32s be b.
Proof. apply flat_map_app. Qed.
Lemma mem_of_u32s_false l : mem_of_u32s false l = bytes_of_words l.
Proof. reflexivity. Qed.
Lemma u32s_of_mem_false : forall k l, (length l < k)%nat -> u32s_of_mem false l = words_of_bytes l.
Proof.
  induction k as [|k IH]; intros l H; [lia|]. destruct l as [|a [|b [|c [|d t]]]]; try reflexivity.
  cbn [u32s_of_mem words_of_bytes length] in *. f_equal. apply IH. lia.
Qed.
(** The other byte order's reading is the byte swap. *)
Definition byte_swap (w : N) : N := from_le (rev (to_le 4 w)).
Lemma u32s_of_mem_true : forall k l, (length l < k)%nat -> bytes l -> u32s_of_mem true l = map byte_swap (words_of_bytes l).
Proof.
  induction k as [|k IH]; intros l H Hb; [lia|]. destruct l as [|a [|b [|c [|d t]]]]; try reflexivity.
  cbn [u32s_of_mem words_of_bytes map length] in *. inversion Hb as [|? ? Ha Hb1]; subst. inversion Hb1 as [|? ? Hbb Hb2]; subst.
  inversion Hb2 as [|? ? Hc Hb3]; subst. inversion Hb3 as [|? ? Hd Ht]; subst. f_equal; [|apply IH; [lia | exact Ht]].
  unfold byte_swap. pose proof (to_from_le [a; b; c; d]) as E. cbn [length] in E. rewrite E; [reflexivity|].
  repeat constructor; assumption.
Qed.
Lemma load_row_at be st i : wf16 st -> (i < 4)%nat -> forall esz,
  vld1q_u32_at be (mem_of_u32s be st) {| p_lo := 0; p_hi := 64; p_off := 16 * i; p_esz := esz |} = Ok (nth i (rows st) []).
Proof.
  intros [Hl Hw] Hi esz. unfold vld1q_u32_at, p_load, in_bounds. cbn [p_lo p_hi p_off].
  rewrite mem_of_u32s_length, Hl.
  replace ((0 <=? 16 * i) && (16 * i + 16 <=? 64) && (64 <=? 4 * 16))%nat%bool with true
    by (symmetry; rewrite !andb_true_iff, !Nat.leb_le; lia).
  cbn [bind]. f_equal. destr16 st Hl. unfold words in Hw. inv_forall. unfold W32 in *.
  destruct be;
  do 4 (destruct i as [|i];
    [ match goal with |- u32s_of_mem ?e ?x = ?y => change x with (mem_of_u32s e y) end;
      apply u32s_round; repeat constructor; assumption |]); lia.
Qed.
Lemma neon_new_at_ok be st : wf16 st -> neon_new_at be st = Ok (neon_regs st).
Proof.
  intros H. unfold neon_new_at. cbv zeta. unfold whole. rewrite mem_of_u32s_length, (proj1 H). change (4 * 16)%nat with 64%nat.
  padd. change (0 + 0 * 4)%nat with (16 * 0)%nat. rewrite load_row_at by (try assumption; lia). cbn [bind].
  padd. change (0 + 4 * 4)%nat with (16 * 1)%nat. rewrite load_row_at by (try assumption; lia). cbn [bind].
  padd. change (0 + 8 * 4)%nat with (16 * 2)%nat. rewrite load_row_at by (try assumption; lia). cbn [bind].
  padd. change (0 + 12 * 4)%nat with (16 * 3)%nat. rewrite load_row_at by (try assumption; lia). reflexivity.
Qed.

(** Words 12-15 in the order 13, 12, 15, 14. *)
Definition swapped (st : list N) : list N := firstn 12 st ++ [nth 13 st 0; nth 12 st 0; nth 15 st 0; nth 14 st 0].
Lemma to_le_8 a b : a < M32 -> b < M32 -> to_le 8 (a + M32 * b) = to_le 4 a ++ to_le 4 b.
Proof.
  intros Ha Hb.
  assert (B : bytes (to_le 4 a ++ to_le 4 b)) by (apply Forall_app; split; apply to_le_bytes).
  rewrite <- (to_from_le (to_le 4 a ++ to_le 4 b)) by exact B.
  rewrite app_length, !to_le_length. change (4 + 4)%nat with 8%nat. f_equal.
  pose proof (from_to_le4 a Ha) as Ea. pose proof (from_to_le4 b Hb) as Eb.
  cbn [to_le app from_le] in *. lia.
Qed.
Lemma vst1q_u64_at_ok be a0 a1 a2 a3 : a0 < M32 -> a1 < M32 -> a2 < M32 -> a3 < M32 ->
  vst1q_u64_at be [a0; a1; a2; a3] = mem_of_u32s be (if be then [a1; a0; a3; a2] else [a0; a1; a2; a3]).
Proof.
  intros H0 H1 H2 H3. unfold vst1q_u64_at, mem_of_u32s, native. rewrite !to_le_8 by assumption.
  destruct be; cbn [flat_map]; rewrite ?rev_app_distr, ?app_nil_r, <- ?app_assoc; reflexivity.
Qed.
Lemma store_row3_at_ok be st r : wf16 st -> length r = 4%nat -> words r ->
  neon_store_row3_at be st r = Ok (if be then swapped (firstn 12 st ++ r) else firstn 12 st ++ r).
Proof.
  intros [Hl Hw] Hr Hwr.
  destruct r as [|a0 [|a1 [|a2 [|a3 [|]]]]]; try discriminate Hr. unfold words in Hwr. inv_forall. unfold W32 in *.
  unfold neon_store_row3_at. cbv zeta. unfold whole. rewrite mem_of_u32s_length, Hl.
  padd. rewrite vst1q_u64_at_ok by assumption.
  assert (Lm : forall e, length (if e : bool then [a1; a0; a3; a2] else [a0; a1; a2; a3]) = 4%nat) by (intros [|]; reflexivity).
  rewrite p_store_ok; cbn [p_lo p_hi p_off]; rewrite ?mem_of_u32s_length, ?Hl, ?Lm; try lia.
  cbn [bind]. f_equal. change (0 + 12 * 4)%nat with 48%nat.
  set (r' := if be then _ else _).
  assert (E : put (mem_of_u32s be st) 48 (mem_of_u32s be r') = mem_of_u32s be (firstn 12 st ++ r')).
  { rewrite mem_of_u32s_app. unfold put. rewrite mem_of_u32s_length. unfold r'. rewrite Lm.
    rewrite (skipn_all2 (n := (48 + 4 * 4)%nat)) by (rewrite mem_of_u32s_length, Hl; lia). rewrite app_nil_r. f_equal.
    clear Hw. destr16 st Hl. destruct be; reflexivity. }
  rewrite E, u32s_round.
  - unfold r'. destruct be; [|reflexivity]. unfold swapped. clear - Hl. destr16 st Hl. reflexivity.
  - apply Forall_app. split.
    + clear - Hw. unfold words in *. rewrite Forall_forall in *. intros x Hx. apply Hw.
      rewrite <- (firstn_skipn 12 st). apply in_or_app. left. assumption.
    + unfold r'. destruct be; repeat constructor; assumption.
Qed.
Lemma neon_run_ok v n l st : wf16 st -> good_requests 8 l ->
  exists bufs k, m_run (neon_mbackend v n) l (neon_regs st) = Ok (bufs, neon_regs (adv v k st))
    /\ map (@length N) bufs = map (fun x => length (snd x)) l
    /\ neon_inner v n (map fst l) st = Ok (concat bufs, adv v k st).
Proof.
  intros Hwf Hg. destruct (good_requests_ok _ _ Hg) as [Hok Hfit]. rewrite neon_inner_ok by assumption.
  set (R := fun b st => b = neon_regs st).
  assert (Hone : forall b st mem, wf16 st -> R b st -> length mem = 64%nat ->
    exists b', m_one (neon_mbackend v n) b mem = Ok (blocks_from v n 1 st, b') /\ R b' (adv v 1 st)).
  { intros b s mem Hs -> Hm. eexists. split; [apply neon_one_mem_ok; assumption|reflexivity]. }
  destruct (m_run_ok (neon_mbackend v n) v n R Hone) with (l := l) (b := neon_regs st) (st := st)
    as (bufs & b' & E & E1 & E2 & HR); try assumption.
  - intros b s mem Hs -> Hm. eexists. split; [apply neon_par_mem_ok; assumption|reflexivity].
  - intros b s k mem Hs HR Hk Hm. apply (m_default_tail_ok (neon_mbackend v n) v n R Hone); assumption.
  - reflexivity.
  - change (m_par (neon_mbackend v n)) with 8%nat in *. unfold R in HR. rewrite HR in E.
    exists bufs, (N.of_nat (reqs_blocks 8 (map fst l))). rewrite <- E1. split; [exact E|]. split; [assumption|reflexivity].
Qed.
Lemma inner_at_ok be v n l st : wf16 st -> good_requests 8 l ->
  exists bufs st', neon_inner v n (map fst l) st = Ok (concat bufs, st')
    /\ map (@length N) bufs = map (fun x => length (snd x)) l
    /\ neon_inner_at be v n l st = Ok (bufs, match v with Legacy => if be then swapped st' else st' | Ietf => st' end).
Proof.
  intros Hwf Hg. destruct (neon_run_ok v n l st Hwf Hg) as (bufs & k & E & EL & En).
  exists bufs, (adv v k st). split; [exact En|]. split; [exact EL|].
  unfold neon_inner_at. rewrite neon_new_at_ok by exact Hwf. cbn [bind]. rewrite E. cbn [bind].
  change (nth 3 (neon_state (neon_regs (adv v k st))) []) with (r3 (adv v k st)).
  destruct v.
  - cbn [bind]. do 2 f_equal. apply (store_ctr Ietf). apply Hwf.
  - destruct (r3_words _ (adv_wf Legacy k st Hwf)) as [L W].
    rewrite store_row3_at_ok by assumption. rewrite (store_row3 Legacy) by apply Hwf. reflexivity.
Qed.
Lemma rng_write_mem v n st mem : neon_rng_inner_mem v n st mem =
  (do s <- neon_new_mem st; do mem <- neon_rng_write v n s mem;
   do st <- neon_store_row3_mem st (neon_add_counter v (nth 3 (neon_state s) []) (nth 3 (neon_ctrs s) []));
   Ok (mem, st)).
Proof.
  unfold neon_rng_inner_mem, neon_rng_write. destruct (neon_new_mem st) as [s|]; [|reflexivity]. cbn [bind]. cbv zeta.
  destruct (for_ (seq 0 4) _ _) as [[m p]|]; reflexivity.
Qed.
Lemma ok_pair {A B} (a a' : A) (b b' : B) : Ok (a, b) = Ok (a', b') -> a = a' /\ b = b'.
Proof. intros E. injection E as -> ->. auto. Qed.
Lemma rng_at_ok be v n st buf : wf16 st -> length buf = 64%nat ->
  neon_rng_inner_at be v n st buf
  = Ok (if be then (map byte_swap (fst (neon_rng_inner v n st)), swapped (snd (neon_rng_inner v n st))) else neon_rng_inner v n st).
Proof.
  intros H Hb.
  assert (Hm : length (mem_of_u32s be buf) = 256%nat) by (rewrite mem_of_u32s_length, Hb; reflexivity).
  pose proof (neon_rng_mem_eq v n st _ H Hm) as E. rewrite rng_write_mem in E.
  rewrite neon_new_mem_ok in E by exact H. cbn [bind] in E.
  unfold neon_rng_inner_at. rewrite neon_new_at_ok by exact H. cbn [bind].
  destruct (neon_rng_write v n (neon_regs st) (mem_of_u32s be buf)) as [m|] eqn:Em; [|discriminate E]. cbn [bind] in E |- *.
  rewrite neon_ctrs_nth in E |- * by lia. change (nth 3 (neon_state (neon_regs st)) []) with (r3 st) in E |- *.
  cbn [Nat.add] in E |- *. change (N.of_nat 4) with 4 in E |- *. rewrite neon_add_r3 in E |- * by (try assumption; lia).
  destruct (r3_words _ (adv_wf v 4 st H)) as [L W].
  rewrite neon_store_row3_ok in E by assumption. rewrite store_row3_at_ok by assumption. cbn [bind] in E |- *.
  apply ok_pair in E. destruct E as [-> _]. rewrite store_row3 by apply H.
  rewrite neon_rng_eq by exact H. cbn [fst snd].
  assert (Hbm : bytes (blocks_from v n 4 st)).
  { unfold blocks_from, bytes. rewrite Forall_forall. intros x Hx. apply in_flat_map in Hx. destruct Hx as (i & _ & Hx).
    pose proof (bytes_of_words_bytes (run_rounds n (adv v (N.of_nat i) st))) as B. unfold bytes in B. rewrite Forall_forall in B.
    exact (B x Hx). }
  destruct be.
  - rewrite (u32s_of_mem_true (S (length (blocks_from v n 4 st)))) by (try exact Hbm; lia).
    rewrite blocks_words by exact H. reflexivity.
  - rewrite (u32s_of_mem_false (S (length (blocks_from v n 4 st)))) by lia. rewrite blocks_words by exact H. reflexivity.
Qed.

(** ** C62 *)
(** [portable] is what the portable backend, which does not depend on the byte order, yields
    for as many blocks. *)
Definition portable (v : variant) (n : nat) (l : list (req * list N)) (st : list N) : Res (list N * list N) :=
  soft_inner v n (repeat One (reqs_blocks 8 (map fst l))) st.
Lemma inner_at_portable be v n l st : wf16 st -> good_requests 8 l ->
  exists bufs st', portable v n l st = Ok (concat bufs, st')
    /\ map (@length N) bufs = map (fun x => length (snd x)) l
    /\ neon_inner_at be v n l st = Ok (bufs, match v with Legacy => if be then swapped st' else st' | Ietf => st' end).
Proof.
  intros Hwf Hg. destruct (inner_at_ok be v n l st Hwf Hg) as (bufs & st' & E & EL & En). exists bufs, st'.
  split; [|split; assumption]. rewrite neon_inner_ok in E by (try assumption; apply good_requests_ok; exact Hg).
  unfold portable. rewrite soft_inner_ok; [|assumption|].
  - rewrite reqs_blocks_repeat. cbn [req_blocks]. rewrite Nat.mul_1_r. exact E.
  - apply forallb_forall. intros x Hx. apply repeat_spec in Hx. subst. reflexivity.
Qed.

(** Little-endian: nothing changes with respect to [Memory.v]'s statements. *)
Theorem C62_little v n l st buf : u32x16 st -> good_requests 8 l -> length buf = 64%nat ->
  (exists bufs st', neon_inner_at false v n l st = Ok (bufs, st') /\ portable v n l st = Ok (concat bufs, st'))
  /\ neon_rng_inner_at false v n st buf = Ok (neon_rng_inner v n st).
Proof.
  intros H Hg Hb. split; [|exact (rng_at_ok false v n st buf H Hb)].
  destruct (inner_at_portable false v n l st H Hg) as (bufs & st' & Es & _ & E). exists bufs, st'. destruct v; split; assumption.
Qed.
Print Assumptions C62_little.
(** Either byte order: with a 32-bit counter (ChaCha and XChaCha) the cipher is right. *)
Theorem C62_cipher_partial be n l st : u32x16 st -> good_requests 8 l ->
  exists bufs st', neon_inner_at be Ietf n l st = Ok (bufs, st') /\ portable Ietf n l st = Ok (concat bufs, st').
Proof.
  intros H Hg. destruct (inner_at_portable be Ietf n l st H Hg) as (bufs & st' & Es & _ & E). exists bufs, st'. split; assumption.
Qed.
Print Assumptions C62_cipher_partial.
(** Big-endian, 64-bit counter: the bytes of one call are right, but the call leaves the two
    halves of the counter, and the two nonce words, exchanged in the state. *)
Theorem C62_legacy_big n l st : u32x16 st -> good_requests 8 l ->
  exists bufs st', neon_inner_at true Legacy n l st = Ok (bufs, firstn 12 st' ++ [nth 13 st' 0; nth 12 st' 0; nth 15 st' 0; nth 14 st' 0])
    /\ portable Legacy n l st = Ok (concat bufs, st').
Proof.
  intros H Hg. destruct (inner_at_portable true Legacy n l st H Hg) as (bufs & st' & Es & _ & E). exists bufs, st'. split; assumption.
Qed.
Print Assumptions C62_legacy_big.
(** Big-endian generator: every word has its bytes reversed, and the state is left as above. *)
Theorem C62_rng_big n st buf : u32x16 st -> length buf = 64%nat ->
  let '(ws, st') := soft_gen_ks_blocks n st in
  neon_rng_inner_at true Legacy n st buf
  = Ok (map (fun w => from_le (rev (to_le 4 w))) ws, firstn 12 st' ++ [nth 13 st' 0; nth 12 st' 0; nth 15 st' 0; nth 14 st' 0]).
Proof.
  intros H Hb. rewrite (soft_rng_eq n st H). rewrite (rng_at_ok true Legacy n st buf H Hb). rewrite neon_rng_eq by exact H. reflexivity.
Qed.
Print Assumptions C62_rng_big.

(** So the full statement (the backend behaves as the portable code on every aarch64 target)
    fails: the second call of a [ChaCha20Legacy] yields the wrong block, *)
Definition ex_st : list N := mk_state Legacy (repeat 0 32) [1; 2; 3; 4; 5; 6; 7; 8] 0.
Definition second_byte_0 (st : list N) : N := nth 0 (to_le 4 (nth 0 (run_rounds 10 st) 0)) 0.
Lemma ex_differ : second_byte_0 (upd ex_st 12 1) <> second_byte_0 (swapped (upd ex_st 12 1)).
Proof. vm_compute. discriminate. Qed.
Lemma one_block v n st : wf16 st -> soft_inner v n [One] st = Ok (bytes_of_words (run_rounds n st), adv v 1 st).
Proof.
  intros H. rewrite soft_inner_ok by (try assumption; reflexivity). change (reqs_blocks 1 [One]) with 1%nat.
  unfold blocks_from. cbn [seq flat_map]. rewrite app_nil_r. change (N.of_nat 0) with 0. rewrite adv_0 by exact H. reflexivity.
Qed.
Lemma two_blocks v n st : wf16 st ->
  soft_inner v n [One; One] st = Ok (bytes_of_words (run_rounds n st) ++ bytes_of_words (run_rounds n (adv v 1 st)), adv v 2 st).
Proof.
  intros H. rewrite soft_inner_ok by (try assumption; reflexivity). change (reqs_blocks 1 [One; One]) with 2%nat.
  unfold blocks_from. cbn [seq flat_map]. rewrite app_nil_r. change (N.of_nat 0) with 0. rewrite adv_0 by exact H. reflexivity.
Qed.
Lemma one_big n st : wf16 st ->
  neon_inner_at true Legacy n [(One, repeat 0 64)] st = Ok ([bytes_of_words (run_rounds n st)], swapped (adv Legacy 1 st)).
Proof.
  intros H. assert (Hg : good_requests 8 [(One, repeat 0 64)]) by (repeat constructor).
  destruct (inner_at_portable true Legacy n _ st H Hg) as (bufs & st' & Es & EL & E). rewrite E.
  change (portable Legacy n [(One, repeat 0 64)] st) with (soft_inner Legacy n [One] st) in Es.
  rewrite one_block in Es by exact H. apply ok_pair in Es. destruct Es as [Eb <-].
  destruct bufs as [|b [|]]; try discriminate EL. cbn [concat] in Eb. rewrite app_nil_r in Eb. rewrite Eb. reflexivity.
Qed.
Lemma adv_ex : adv Legacy 1 ex_st = upd ex_st 12 1.
Proof. vm_compute. reflexivity. Qed.
Lemma nth_0_bytes a l : nth 0 (bytes_of_words (a :: l)) 0 = nth 0 (to_le 4 a) 0.
Proof. reflexivity. Qed.
Lemma second_byte st : wf16 st -> nth 0 (bytes_of_words (run_rounds 10 st)) 0 = second_byte_0 st.
Proof.
  intros H. unfold second_byte_0. pose proof (proj1 (run_rounds_wf 10 st H)) as L. destruct (run_rounds 10 st) as [|a l]; [discriminate L|].
  apply nth_0_bytes.
Qed.
Theorem C62_legacy_refuted : exists key iv st b1 st1 b2 st2 c2 st3,
  octets 32 key /\ octets 8 iv /\ new_internal Legacy key iv = Ok st
  /\ neon_inner_at true Legacy 10 [(One, repeat 0 64)] st = Ok ([b1], st1)
  /\ neon_inner_at true Legacy 10 [(One, repeat 0 64)] st1 = Ok ([b2], st2)
  /\ soft_inner Legacy 10 [One; One] st = Ok (b1 ++ c2, st3)
  /\ b2 <> c2.
Proof.
  exists (repeat 0 32), [1; 2; 3; 4; 5; 6; 7; 8], ex_st.
  assert (H : wf16 ex_st) by (apply u32x16_check; vm_compute; reflexivity).
  assert (H1 : wf16 (swapped (upd ex_st 12 1))) by (apply u32x16_check; vm_compute; reflexivity).
  assert (H2 : wf16 (upd ex_st 12 1)) by (apply u32x16_check; vm_compute; reflexivity).
  do 6 eexists. split; [apply octets_check; vm_compute; reflexivity|]. split; [apply octets_check; vm_compute; reflexivity|].
  split; [vm_compute; reflexivity|]. split; [apply one_big; exact H|]. rewrite adv_ex. split; [apply one_big; exact H1|].
  split; [apply two_blocks; exact H|]. rewrite adv_ex. intros E. apply (f_equal (fun l => nth 0 l 0)) in E.
  rewrite !second_byte in E by assumption. exact (ex_differ (eq_sym E)).
Qed.
Print Assumptions C62_legacy_refuted.
(** and the first word of a generator, for example [ChaCha8Rng::from_seed([0; 32])], is wrong. *)
Definition seed_st : list N := mk_state Legacy (repeat 0 32) (repeat 0 8) 0.
Lemma seed_word : nth 0 (run_rounds 4 seed_st) 0 <> byte_swap (nth 0 (run_rounds 4 seed_st) 0).
Proof. vm_compute. discriminate. Qed.
Theorem C62_rng_refuted : exists st ws st' ws' st'',
  core_from_seed Legacy (repeat 0 32) = Ok st
  /\ soft_gen_ks_blocks 4 st = (ws, st')
  /\ neon_rng_inner_at true Legacy 4 st (repeat 0 64) = Ok (ws', st'')
  /\ nth 0 ws 0 <> nth 0 ws' 0.
Proof.
  exists seed_st. assert (H : wf16 seed_st) by (apply u32x16_check; vm_compute; reflexivity).
  pose proof (C62_rng_big 4 seed_st (repeat 0 64) H (repeat_length _ _)) as E.
  rewrite (soft_rng_eq 4 seed_st H) in E |- *. do 4 eexists. split; [vm_compute; reflexivity|]. split; [reflexivity|].
  split; [exact E|].
  rewrite words_from_S by exact H. pose proof seed_word as D.
  pose proof (proj1 (run_rounds_wf 4 seed_st H)) as L. destruct (run_rounds 4 seed_st) as [|a l]; [discriminate L|].
  cbn [app map nth] in *. exact D.
Qed.
Print Assumptions C62_rng_refuted.

(** The hypotheses are met by a state whose counter is about to carry, and by buffers for a
    batch of eight blocks and a tail of three. *)
Example C62_satisfiable :
  u32x16 (mk_state Legacy ex_key ex_nonce8 0xffffffff)
  /\ good_requests 8 [(Par, repeat 2 512); (Tail 3, repeat 5 192)]
  /\ swapped (mk_state Legacy ex_key ex_nonce8 0xffffffff) <> mk_state Legacy ex_key ex_nonce8 0xffffffff.
Proof.
  split; [apply u32x16_check; vm_compute; reflexivity|]. split; [|vm_compute; discriminate].
  unfold good_requests. repeat constructor.
Qed.
