(** Shape invariants: states keep their size, so wiped memory is all zeros. *)
From Verif Require Export Lifecycle.
From Verif Require Import WordLemmas SpecStream ChaChaCore ChaChaDispatch XChaCha ChaChaSoft ChaChaProofs ChaChaDispatchProofs
  CipherWrapper WrapperProofs Salsa SalsaProofs SpecRabbit Rabbit RabbitProofs SpecHC256 Hc256 Hc256Proofs Rc4 SpecRC4 Rc4Proofs
  PropCommon Ciphers CiphersProofs BlockRng ChaChaRng SpecRng.
From Coq Require Import Lia.

Lemma zeroize_eq l n : length l = n -> zeroize l = repeat 0 n.
Proof. intros <-. unfold zeroize. induction l as [|x l IH]; [reflexivity|]. cbn. f_equal. exact IH. Qed.

Section Shape.
  Context {S : Type} (C : score S) (Q : S -> Prop).
  Hypothesis bs_pos : (0 < sc_bs C)%nat.
  Hypothesis gen_Q : forall k st o st', Q st -> sc_gen C k st = Ok (o, st') -> Q st' /\ length o = (sc_bs C * k)%nat.
  Definition shape (w : wrapper S) : Prop := Q (w_core w) /\ length (w_buf w) = sc_bs C.

  Lemma shape_new st : Q st -> shape (w_new C st).
  Proof using Type. intros H. split; [exact H | apply repeat_length]. Qed.
  Lemma shape_write_block st buf cur r o w' : Q st -> length buf = sc_bs C -> write_block C st buf cur r = Ok (o, w') -> shape w'.
  Proof using gen_Q bs_pos.
    intros Hq Hb E. unfold write_block in E. destruct (r =? 0)%nat; [injection E as <- <-; split; assumption|].
    destruct (assert_ _) as [u|]; [|discriminate E]. cbn [bind] in E.
    destruct (sc_gen C 1 st) as [[blk st']|] eqn:G; [|discriminate E]. cbn [bind] in E. injection E as <- <-.
    destruct (gen_Q _ _ _ _ Hq G) as [Hq' Hl]. split; [exact Hq'|]. cbn [w_buf]. rewrite Hl. lia.
  Qed.
  Lemma shape_write w n o w' : shape w -> unchecked_write C w n = Ok (o, w') -> shape w'.
  Proof using gen_Q bs_pos.
    intros [Hq Hb] E. unfold unchecked_write in E. destruct (read_cached C w n) as [head cur].
    destruct (sc_gen C _ (w_core w)) as [[body st]|] eqn:G; [|discriminate E]. cbn [bind] in E.
    destruct (gen_Q _ _ _ _ Hq G) as [Hq' _].
    destruct (write_block C st (w_buf w) cur _) as [[tail w1]|] eqn:T; [|discriminate E]. cbn [bind] in E. injection E as <- <-.
    exact (shape_write_block _ _ _ _ _ _ Hq' Hb T).
  Qed.
  Lemma shape_apply w d o w' : shape w -> unchecked_apply C w d = Ok (o, w') -> shape w'.
  Proof using gen_Q bs_pos.
    intros H E. unfold unchecked_apply in E. destruct (unchecked_write C w (length d)) as [[k w1]|] eqn:G; [|discriminate E].
    cbn [bind] in E. injection E as <- <-. exact (shape_write _ _ _ _ H G).
  Qed.
  Context (K : option (sseek S)).
  Hypothesis set_Q : match K with None => True | Some k => forall st b, Q st -> b < sk_mod k -> Q (sk_set k st b) end.
  Lemma shape_try_apply w d o w' : shape w -> try_apply C w d = Ok (Some (o, w')) -> shape w'.
  Proof using gen_Q bs_pos.
    intros H E. unfold try_apply in E. destruct (check_remaining C w (length d)); [|discriminate E].
    destruct (unchecked_apply C w d) as [[k w1]|] eqn:G; [|discriminate E]. cbn [bind] in E. injection E as <- <-.
    exact (shape_apply _ _ _ _ H G).
  Qed.
  Lemma shape_try_write w n o w' : shape w -> try_write C w n = Ok (Some (o, w')) -> shape w'.
  Proof using gen_Q bs_pos.
    intros H E. unfold try_write in E. destruct (check_remaining C w n); [|discriminate E].
    destruct (unchecked_write C w n) as [[k w1]|] eqn:G; [|discriminate E]. cbn [bind] in E. injection E as <- <-.
    exact (shape_write _ _ _ _ H G).
  Qed.
  Lemma shape_step w o r w' : shape w -> step C K w o = Ok (r, w') -> shape w'.
  Proof using gen_Q bs_pos set_Q.
    intros H E. unfold step in E. destruct o as [d|d m|n|p|t].
    - destruct (try_apply C w d) as [[[b w1]|]|] eqn:G; cbn [bind] in E; [| |discriminate E]; injection E as <- <-; [|exact H].
      exact (shape_try_apply _ _ _ _ H G).
    - unfold apply_b2b in E. destruct (length d =? m)%nat; cbn [bind] in E; [|injection E as <- <-; exact H].
      destruct (try_apply C w d) as [[[b w1]|]|] eqn:G; cbn [bind] in E; [| |discriminate E]; injection E as <- <-; [|exact H].
      exact (shape_try_apply _ _ _ _ H G).
    - destruct (try_write C w n) as [[[b w1]|]|] eqn:G; cbn [bind] in E; [| |discriminate E]; injection E as <- <-; [|exact H].
      exact (shape_try_write _ _ _ _ H G).
    - destruct K as [k|]; [|injection E as <- <-; exact H]. unfold try_seek in E.
      destruct (N.ltb_spec (p / N.of_nat (sc_bs C)) (sk_mod k)) as [Hlt|]; cbn [bind] in E; [|injection E as <- <-; exact H].
      destruct (write_block C _ (w_buf w) (sc_bs C) _) as [[x w1]|] eqn:G; cbn [bind] in E; [|discriminate E]. injection E as <- <-.
      exact (shape_write_block _ _ _ _ _ _ (set_Q _ _ (proj1 H) Hlt) (proj2 H) G).
    - destruct K as [k|]; [|injection E as <- <-; exact H].
      destruct (try_current_pos C k w t); injection E as <- <-; exact H.
  Qed.
  Lemma shape_run h : forall w rs w', shape w -> run C K w h = Ok (rs, w') -> shape w'.
  Proof using gen_Q bs_pos set_Q.
    induction h as [|o h IH]; intros w rs w' H E; cbn [run] in E; [injection E as <- <-; exact H|].
    destruct (step C K w o) as [[r w1]|] eqn:G; [|discriminate E]. cbn [bind] in E.
    destruct (run C K w1 h) as [[rs' w2]|] eqn:G2; [|discriminate E]. cbn [bind] in E. injection E as <- <-.
    exact (IH _ _ _ (shape_step _ _ _ _ H G) G2).
  Qed.
  Lemma shape_after m h end_ mem : (forall st, m = Ok st -> Q st) -> after_core C K m h end_ = Ok mem -> exists w, shape w /\ mem = end_ w.
  Proof using gen_Q bs_pos set_Q.
    intros Hm E. unfold after_core in E. destruct m as [st|]; [|discriminate E]. cbn [bind] in E.
    destruct (run C K (w_new C st) h) as [[rs w]|] eqn:G; [|discriminate E]. cbn [bind] in E. injection E as <-.
    exists w. split; [|reflexivity]. apply (shape_run _ _ _ _ (shape_new st (Hm st eq_refl)) G).
  Qed.
  Lemma buffer_mem_length w : shape w -> length (buffer_mem w) = sc_bs C.
  Proof using bs_pos. intros [_ H]. unfold buffer_mem. destruct (w_buf w); cbn in *; lia. Qed.
  Lemma dropped_zero (mem : S -> list N) (drop : S -> S) size w :
    (forall st, Q st -> mem (drop st) = repeat 0 size) -> shape w -> dropped mem drop true w = repeat 0 (size + sc_bs C).
  Proof using bs_pos.
    intros Hm H. unfold dropped, buffer_drop. rewrite (Hm _ (proj1 H)), (zeroize_eq _ _ (buffer_mem_length w H)).
    symmetry. apply repeat_app.
  Qed.
End Shape.

(** ** The cores *)
Lemma blocks_from_length v n k st : wf16 st -> length (blocks_from v n k st) = (64 * k)%nat.
Proof.
  intros H. unfold blocks_from. rewrite (flat_map_len 64); [lia|].
  intros i. pose proof (run_rounds_wf n _ (adv_wf v (N.of_nat i) st H)) as [Hl _].
  rewrite bytes_of_words_length, Hl. reflexivity.
Qed.
Lemma set_block_pos_wf v st b : wf16 st -> b < sk_mod (chacha_seek v) -> wf16 (set_block_pos v st b).
Proof.
  intros [Hl Hw] Hb. destruct v; cbn [set_block_pos sk_mod chacha_seek] in *.
  - split; [rewrite upd_length; exact Hl | apply Forall_upd; assumption].
  - split; [rewrite !upd_length; exact Hl|]. apply Forall_upd; [apply Forall_upd; [exact Hw|]|]; apply N.mod_lt; discriminate.
Qed.
Lemma chacha_gen_Q e v n k st o st' : wf16 st -> sc_gen (chacha_score e v n) k st = Ok (o, st') -> wf16 st' /\ length o = (64 * k)%nat.
Proof.
  intros H E. cbn [sc_gen chacha_score] in E. rewrite core_write_ok in E by exact H. injection E as <- <-.
  split; [apply adv_wf; exact H | apply blocks_from_length; exact H].
Qed.
Lemma s_blocks_length n k st : wf16 st -> length (s_blocks n k st) = (64 * k)%nat.
Proof.
  intros H. unfold s_blocks. rewrite (flat_map_len 64); [lia|].
  intros i. pose proof (s_run_rounds_wf n _ (s_adv_wf (N.of_nat i) st H)) as [Hl _].
  rewrite bytes_of_words_length, Hl. reflexivity.
Qed.
Lemma salsa_gen_Q e n k st o st' : wf16 st -> sc_gen (salsa_score e n) k st = Ok (o, st') -> wf16 st' /\ length o = (64 * k)%nat.
Proof.
  intros H E. cbn [sc_gen salsa_score] in E.
  destruct (N.ltb_spec (s_ctr st + N.of_nat k) M64) as [L|L].
  - rewrite salsa_write_ok in E by auto. injection E as <- <-. split; [apply s_adv_wf | apply s_blocks_length]; exact H.
  - destruct (e_ck e) eqn:Ec.
    + rewrite salsa_write_panic in E by assumption. discriminate E.
    + rewrite salsa_write_ok in E by (try exact H; discriminate). injection E as <- <-.
      split; [apply s_adv_wf | apply s_blocks_length]; exact H.
Qed.
Lemma salsa_set_wf st b : wf16 st -> wf16 (salsa_set_pos st b).
Proof.
  intros [Hl Hw]. unfold salsa_set_pos. cbv zeta. split; [rewrite !upd_length; exact Hl|].
  apply Forall_upd; [apply Forall_upd; [exact Hw|]|]; apply N.mod_lt; discriminate.
Qed.
Lemma rabbit_gen_Q e k s o s' : rwf s -> sc_gen (rabbit_score e) k s = Ok (o, s') -> rwf s' /\ length o = (16 * k)%nat.
Proof.
  intros H E. cbn [sc_gen rabbit_score] in E. destruct (rabbit_write_ok (e_ck e) k s H) as (s1 & E1 & H1 & _).
  rewrite E1 in E. injection E as <- <-. split; [exact H1|].
  rewrite (flat_map_len 16); [lia|]. intros i. rewrite rb_octets_le. apply to_le_length.
Qed.
Definition hwf (s : hc) : Prop := exists t i, hrel s (hc_run t i) (N.of_nat i).
Lemma hc_gen_Q e k s o s' : env_ok e -> hwf s -> sc_gen (hc_score e) k s = Ok (o, s') -> hwf s' /\ length o = (4 * k)%nat.
Proof.
  intros He (t & i & H) E. cbn [sc_gen hc_score] in E.
  assert (Hu : usize_ok (2 ^ e_usz e)).
  { unfold usize_ok. destruct He as [-> | [-> | ->]]; [left | right; left | right; right]; reflexivity. }
  destruct (hc_write_ok (e_ck e) (2 ^ e_usz e) k t Hu i s H) as (s1 & E1 & H1). rewrite E1 in E. injection E as <- <-.
  split; [exists t, (i + k)%nat; exact H1|]. rewrite (flat_map_len 4); [lia|]. intros j. reflexivity.
Qed.
Lemma hwf_lengths s : hwf s -> length (h_p s) = 1024%nat /\ length (h_q s) = 1024%nat.
Proof. intros (t & i & (H1 & H2 & _)). split; [apply H1 | apply H2]. Qed.

(** ** What each drop leaves *)
Definition drops (f : features) := own f = true.
Lemma chacha_drop_zero f st : drops f -> wf16 st -> words_mem (chacha_drop f st) = repeat 0 16.
Proof. unfold drops. intros Hf [Hl _]. unfold words_mem, chacha_drop. rewrite Hf. apply zeroize_eq, Hl. Qed.
Lemma salsa_drop_zero f st : drops f -> wf16 st -> words_mem (salsa_drop f st) = repeat 0 16.
Proof. unfold drops. intros Hf [Hl _]. unfold words_mem, salsa_drop. rewrite Hf. apply zeroize_eq, Hl. Qed.
Lemma rabbit_drop_zero f s : drops f -> rwf s -> rabbit_mem (rabbit_drop f s) = repeat 0 17.
Proof.
  unfold drops. intros Hf (H1 & _ & H2 & _). unfold rabbit_mem, rabbit_drop. rewrite Hf. cbn [r_x r_c r_carry].
  rewrite (zeroize_eq _ _ H1), (zeroize_eq _ _ H2). reflexivity.
Qed.
Lemma hc_drop_zero f s : drops f -> hwf s -> hc_mem (hc_drop f s) = repeat 0 2049.
Proof.
  unfold drops. intros Hf H. destruct (hwf_lengths s H) as [H1 H2]. unfold hc_mem, hc_drop. rewrite Hf. cbn [h_p h_q h_idx].
  rewrite (zeroize_eq _ _ H1), (zeroize_eq _ _ H2). change [0] with (repeat 0 1). rewrite <- !repeat_app. reflexivity.
Qed.
Lemma rc4_drop_zero f s : drops f -> kwf s -> rc4_mem (rc4_drop f s) = repeat 0 258.
Proof.
  unfold drops. intros Hf (H & _). apply perm_length in H. unfold rc4_mem, rc4_drop. rewrite Hf. cbn [k_state k_i k_j].
  rewrite (zeroize_eq _ _ H). change [0; 0] with (repeat 0 2). rewrite <- !repeat_app. reflexivity.
Qed.

(** ** RNG *)
Definition rshape (r : rng) : Prop := wf16 (b_core r) /\ length (b_res r) = 64%nat.
Section Rng.
  Context (c : config) (p : cpu) (n : nat).
  Notation G := (rng_gen c p n).
  Lemma gen_shape st : wf16 st -> wf16 (snd (G st)) /\ length (fst (G st)) = 64%nat.
  Proof.
    intros H. unfold rng_gen. rewrite generate_ok by exact H. cbn [fst snd].
    split; [apply adv_wf; exact H | apply words_from_length; exact H].
  Qed.
  Ltac use_gen r H := let X := fresh in pose proof (gen_shape (b_core r) (proj1 H)) as X; destruct (G (b_core r)) as [? ?]; cbn [fst snd] in X.
  Lemma refill_shape r : rshape r -> rshape (refill G r).
  Proof.
    intros H. unfold refill. destruct (BUFFER_SIZE <=? b_idx r)%nat; [|exact H]. use_gen r H. unfold rshape. cbn [b_core b_res]. tauto.
  Qed.
  Lemma skip_shape r k r' : rshape r -> reset_and_skip G r k = Ok r' -> rshape r'.
  Proof.
    intros H E. unfold reset_and_skip in E. destruct (k =? 0)%nat; [injection E as <-; exact H|].
    destruct (assert_ _); [|discriminate E]. cbn [bind] in E. use_gen r H. injection E as <-. unfold rshape. cbn [b_core b_res]. tauto.
  Qed.
  Lemma next_word_shape r : rshape r -> rshape (snd (next_word G r)).
  Proof. intros H. apply refill_shape in H. exact H. Qed.
  Lemma next_u64_shape r : rshape r -> rshape (snd (next_u64 G r)).
  Proof.
    intros H. unfold next_u64. cbv zeta. use_gen r H.
    destruct (b_idx r <? BUFFER_SIZE - 1)%nat; [exact H|]. destruct (BUFFER_SIZE <=? b_idx r)%nat; cbn [snd]; unfold rshape; cbn [b_core b_res]; tauto.
  Qed.
  Lemma fill_shape fuel : forall r len, rshape r -> rshape (snd (fill_loop G fuel r len)).
  Proof.
    induction fuel as [|fuel IH]; intros r len H; cbn [fill_loop]; [exact H|]. destruct (len =? 0)%nat; [exact H|]. cbv zeta.
    pose proof (refill_shape r H) as H'. set (q := refill G r) in *.
    set (r1 := {| b_core := b_core q; b_res := b_res q; b_idx := _ |}).
    assert (H1 : rshape r1) by exact H'. specialize (IH r1 (len - Nat.min (4 * length (skipn (b_idx q) (b_res q))) len)%nat H1).
    destruct (fill_loop G fuel r1 _) as [rest r2]. exact IH.
  Qed.
  Lemma upd_wf st i x : wf16 st -> wf16 (upd st i (as_u32 x)).
  Proof. intros [Hl Hw]. split; [rewrite upd_length; exact Hl | apply Forall_upd; [exact Hw | apply N.mod_lt; discriminate]]. Qed.
  Lemma set_block_shape r b r' : rshape r -> rng_set_block_pos G r b = Ok r' -> rshape r'.
  Proof.
    intros H E. unfold rng_set_block_pos in E. destruct (reset_and_skip G r 0) as [r1|] eqn:E1; [|discriminate E]. cbn [bind] in E.
    apply skip_shape in E1; [|exact H]. injection E as <-. destruct E1 as [H1 H2]. split; [|exact H2]. cbn [b_core set_block_pos].
    apply upd_wf, upd_wf, H1.
  Qed.
  Lemma set_word_shape r p' r' : rshape r -> rng_set_word_pos G r p' = Ok r' -> rshape r'.
  Proof.
    intros [H1 H2] E. unfold rng_set_word_pos in E. cbv zeta in E. apply skip_shape in E; [exact E|].
    split; [apply upd_wf, upd_wf, H1 | exact H2].
  Qed.
  Lemma step_shape ck r o x r' : rshape r -> rng_step G ck r o = Ok (x, r') -> rshape r'.
  Proof.
    intros H E. destruct o as [| |k| |q| |b| |s| |]; cbn [rng_step] in E.
    - pose proof (next_word_shape r H). destruct (next_word G r) as [y r1]. injection E as <- <-. assumption.
    - pose proof (next_u64_shape r H). destruct (next_u64 G r) as [y r1]. injection E as <- <-. assumption.
    - pose proof (fill_shape k r k H) as X. unfold fill_bytes in E. destruct (fill_loop G k r k) as [y r1]. injection E as <- <-. exact X.
    - injection E as <- <-. exact H.
    - destruct (rng_set_word_pos G r q) as [r1|] eqn:E1; [|discriminate E]. cbn [bind] in E. injection E as <- <-.
      exact (set_word_shape _ _ _ H E1).
    - destruct (rng_get_block_pos ck r) as [b|]; [|discriminate E]. cbn [bind] in E. injection E as <- <-. exact H.
    - destruct (rng_set_block_pos G r b) as [r1|] eqn:E1; [|discriminate E]. cbn [bind] in E. injection E as <- <-.
      exact (set_block_shape _ _ _ H E1).
    - injection E as <- <-. exact H.
    - destruct (set_stream G r s) as [r1|] eqn:E1; [|discriminate E]. cbn [bind] in E. injection E as <- <-.
      unfold set_stream in E1. cbv zeta in E1. apply set_block_shape in E1; [exact E1|].
      destruct H as [H1 H2]. split; [apply upd_wf, upd_wf, H1 | exact H2].
    - injection E as <- <-. exact H.
    - destruct (serialize_state ck r) as [l|]; [|discriminate E]. cbn [bind] in E. injection E as <- <-. exact H.
  Qed.
End Rng.
Lemma rng_dropped_zero f r : drops f -> rshape r -> rng_dropped f r = repeat 0 80.
Proof.
  intros Hf [H1 H2]. unfold rng_dropped. rewrite chacha_drop_zero by assumption. unfold generator_drop. unfold drops in Hf. rewrite Hf.
  rewrite (zeroize_eq _ 64); [rewrite <- repeat_app; reflexivity|]. unfold results_mem. destruct (b_res r); cbn in *; lia.
Qed.
Lemma b_new_shape core : wf16 core -> rshape (b_new core).
Proof. intros H. split; [exact H | apply repeat_length]. Qed.
