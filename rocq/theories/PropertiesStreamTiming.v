(** C77: a cipher of the ChaCha, Salsa and Rabbit families, used through its public
    interface, branches and touches memory according to the lengths and positions of the
    calls alone: the key, the IV and the data have no influence, on any backend. *)
From Verif Require Import Word WordLemmas Res SpecStream PropCommon ChaChaCore ChaChaSoft ChaChaProofs ChaChaBackend ChaChaDispatch ChaChaDispatchProofs XChaCha
  CipherWrapper WrapperProofs Salsa SalsaProofs Rabbit RabbitProofs Ciphers CiphersProofs LifecycleProofs
  Memory MemoryProofs PropertiesMemory PropertiesSalsa PropertiesChaCha
  Leakage LeakageProofs LeakageRes LeakageResProofs LeakageSimd LeakageSim LeakageSimdProofs PropertiesTiming PropertiesRngTiming PropertiesStream LeakageStream.
From Verif Require Isa.
From Coq Require Import ZArith Lia ZifyBool ZifyNat ZifyN.
Local Open Scope N_scope.

(** ** Erasure: without the events, the instrumented types are the types of the model *)
Section Faithful.
  Context {S : Type} (C : lscore S) (C0 : score S) (I : S -> Prop)
    (HB : ls_bs C = sc_bs C0)
    (HG : forall k s, I s -> fst (ls_gen C k s) = sc_gen C0 k s)
    (HI : forall k s o s', I s -> sc_gen C0 k s = Ok (o, s') -> I s')
    (HR : forall s, I s -> fst (ls_rem C s) = Ok (sc_rem C0 s)).

  Lemma write_block_value s buf cur k : I s -> fst (write_block_lk C s buf cur k) = write_block C0 s buf cur k
    /\ forall o w', write_block C0 s buf cur k = Ok (o, w') -> I (w_core w').
  Proof using HB HG HI.
    intros H. unfold write_block_lk, write_block. cbv zeta. ez. destruct (k =? 0)%nat.
    - split; [reflexivity|]. intros o w' E. injection E as <- <-. exact H.
    - ez. rewrite HB. destruct (assert_ (k <? sc_bs C0)%nat) as [[]|]; cbn [bind]; [|split; [reflexivity | discriminate]].
      rewrite ?fst_rbind, HG by exact H. destruct (sc_gen C0 1 s) as [[blk s']|] eqn:E; cbn [bind]; [|split; [reflexivity | discriminate]].
      split; [reflexivity|]. intros o w' E'. injection E' as <- <-. exact (HI _ _ _ _ H E).
  Qed.
  Lemma unchecked_write_value w len : I (w_core w) -> fst (unchecked_write_lk C w len) = unchecked_write C0 w len
    /\ forall o w', unchecked_write C0 w len = Ok (o, w') -> I (w_core w').
  Proof using HB HG HI.
    intros H. unfold unchecked_write_lk, unchecked_write, read_cached_lk, read_cached, buf_rem. cbv zeta. rewrite HB. ez.
    set (head := slice (w_buf w) (w_cur w) (Nat.min (sc_bs C0 - w_cur w) len)).
    rewrite ?fst_rbind, HG by exact H.
    destruct (sc_gen C0 ((len - length head) / sc_bs C0) (w_core w)) as [[body s']|] eqn:E; cbn [bind]; [|split; [reflexivity | discriminate]].
    pose proof (HI _ _ _ _ H E) as H'.
    destruct (write_block_value s' (w_buf w) (w_cur w + Nat.min (sc_bs C0 - w_cur w) len) ((len - length head) mod sc_bs C0) H') as [E2 K].
    rewrite ?fst_rbind, E2. destruct (write_block C0 s' _ _ _) as [[tl w']|]; cbn [bind]; [|split; [reflexivity | discriminate]].
    split; [reflexivity|]. intros o w'' X. injection X as _ <-. exact (K _ _ eq_refl).
  Qed.
  Lemma check_value w len : I (w_core w) -> fst (check_remaining_lk C w len) = Ok (check_remaining C0 w len).
  Proof using HB HR.
    intros H. unfold check_remaining_lk, check_remaining, buf_rem. cbv zeta. rewrite ?fst_rbind, HR by exact H. rewrite HB. cbn [bind].
    destruct (sc_rem C0 (w_core w)) as [r|]; [|reflexivity]. ez. destruct (len <=? sc_bs C0 - w_cur w)%nat; reflexivity.
  Qed.
  Definition opt_ok (r : Res (option (list N * wrapper S))) : Prop :=
    forall o w', r = Ok (Some (o, w')) -> I (w_core w').
  Lemma try_write_value w len : I (w_core w) -> fst (try_write_lk C w len) = try_write C0 w len /\ opt_ok (try_write C0 w len).
  Proof using HB HG HI HR.
    intros H. unfold try_write_lk, try_write, opt_ok. rewrite ?fst_rbind, check_value by exact H. cbn [bind]. ez.
    destruct (check_remaining C0 w len); [|split; [reflexivity | discriminate]].
    destruct (unchecked_write_value w len H) as [E K]. rewrite ?fst_rbind, E.
    destruct (unchecked_write C0 w len) as [[o w']|]; cbn [bind]; [|split; [reflexivity | discriminate]].
    split; [reflexivity|]. intros o1 w1 X. injection X as _ <-. exact (K _ _ eq_refl).
  Qed.
  Lemma try_apply_value w d : I (w_core w) -> fst (try_apply_lk C w d) = try_apply C0 w d /\ opt_ok (try_apply C0 w d).
  Proof using HB HG HI HR.
    intros H. unfold try_apply_lk, try_apply, opt_ok. rewrite ?fst_rbind, check_value by exact H. cbn [bind]. ez.
    destruct (check_remaining C0 w (length d)); [|split; [reflexivity | discriminate]].
    unfold unchecked_apply_lk, unchecked_apply.
    destruct (unchecked_write_value w (length d) H) as [E K]. rewrite ?fst_rbind, E.
    destruct (unchecked_write C0 w (length d)) as [[o w']|]; cbn [bind]; [|split; [reflexivity | discriminate]].
    split; [reflexivity|]. intros o1 w1 X. injection X as _ <-. exact (K _ _ eq_refl).
  Qed.

  Context (K : option (lsseek S)) (K0 : option (sseek S))
    (HK : match K, K0 with
          | None, None => True
          | Some k, Some k0 => lk_mod k = sk_mod k0
              /\ (forall s, I s -> fst (lk_get k s) = Ok (sk_get k0 s))
              /\ (forall s b, I s -> b < sk_mod k0 -> fst (lk_set k s b) = Ok (sk_set k0 s b) /\ I (sk_set k0 s b))
          | _, _ => False
          end).
  Lemma step_value w o : I (w_core w) -> fst (step_lk C K w o) = step C0 K0 w o
    /\ forall r w', step C0 K0 w o = Ok (r, w') -> I (w_core w').
  Proof using HB HG HI HR HK.
    intros H.
    assert (L : forall m m0, fst m = m0 -> opt_ok m0 ->
      fst (dol r <- m; match r with Some (b, w') => leak [Br true] (Ok (Bytes b, w')) | None => leak [Br false] (Ok (Err, w)) end)
      = (do r <- m0; match r with Some (b, w') => Ok (Bytes b, w') | None => Ok (Err, w) end)
      /\ forall r w', (do r <- m0; match r with Some (b, w') => Ok (Bytes b, w') | None => Ok (Err, w) end) = Ok (r, w') -> I (w_core w')).
    { intros m m0 E O. rewrite fst_rbind, E. destruct m0 as [[[b w']|]|]; cbn [bind leak fst].
      - split; [reflexivity|]. intros r w1 X. injection X as _ <-. exact (O _ _ eq_refl).
      - split; [reflexivity|]. intros r w1 X. injection X as _ <-. exact H.
      - split; [reflexivity | discriminate]. }
    destruct o as [d|d m|k|p|t]; cbn [step_lk step].
    - apply L; apply (try_apply_value w d H).
    - apply L; unfold apply_b2b_lk, apply_b2b, opt_ok; ez; (destruct (length d =? m)%nat; [apply (try_apply_value w d H)|]); [reflexivity | discriminate].
    - apply L; apply (try_write_value w k H).
    - destruct K as [k|], K0 as [k0|]; try contradiction; [|split; [reflexivity|]; intros r w' X; injection X as _ <-; exact H].
      destruct HK as (HM & Hg & Hs). unfold try_seek_lk, try_seek. cbv zeta. rewrite HM, HB. ez.
      destruct (N.ltb_spec (p / N.of_nat (sc_bs C0)) (sk_mod k0)) as [Hp|Hp].
      + destruct (Hs (w_core w) _ H Hp) as [E1 I1]. rewrite ?fst_rbind, E1. cbn [bind].
        destruct (write_block_value _ (w_buf w) (sc_bs C0) (N.to_nat (p mod N.of_nat (sc_bs C0))) I1) as [E2 K2].
        rewrite ?fst_rbind, E2. destruct (write_block C0 _ _ _ _) as [[o w']|]; cbn [bind rret fst leak].
        * split; [reflexivity|]. intros r w1 X. injection X as _ <-. exact (K2 _ _ eq_refl).
        * split; [reflexivity | discriminate].
      + split; [reflexivity|]. intros r w' X. injection X as _ <-. exact H.
    - destruct K as [k|], K0 as [k0|]; try contradiction; [|split; [reflexivity|]; intros r w' X; injection X as _ <-; exact H].
      destruct HK as (HM & Hg & Hs). unfold try_current_pos_lk, try_current_pos, buf_rem. cbv zeta. rewrite ?fst_rbind, Hg by exact H. cbn [bind]. rewrite HB. ez.
      destruct (sk_get k0 (w_core w) <? t); cbn [andb];
        [ez; destruct (sk_get k0 (w_core w) * N.of_nat (sc_bs C0) <? t); cbn [andb];
          [ez; destruct (N.of_nat (sc_bs C0 - w_cur w) <=? sk_get k0 (w_core w) * N.of_nat (sc_bs C0)) |] |];
        (split; [reflexivity|]; intros r w' X; injection X as _ <-; exact H).
  Qed.
  Lemma run_value h : forall w, I (w_core w) -> fst (run_lk C K w h) = run C0 K0 w h.
  Proof using HB HG HI HR HK.
    induction h as [|o h IH]; intros w H; cbn [run_lk run]; [reflexivity|].
    destruct (step_value w o H) as [E J]. rewrite fst_rbind, E. destruct (step C0 K0 w o) as [[r w1]|]; cbn [bind]; [|reflexivity].
    rewrite fst_rbind, IH by exact (J _ _ eq_refl). destruct (run C0 K0 w1 h) as [[rs w2]|]; reflexivity.
  Qed.
  Lemma run_core_value m m0 h : fst m = m0 -> (forall s, m0 = Ok s -> I s) -> fst (run_core_lk C K m h) = run_core C0 K0 m0 h.
  Proof using HB HG HI HR HK.
    intros E J. unfold run_core_lk, run_core, w_new. rewrite fst_rbind, E. destruct m0 as [s|]; cbn [bind]; [|reflexivity].
    rewrite HB, fst_rbind, run_value by exact (J s eq_refl). destruct (run C0 K0 _ h) as [[rs w]|]; reflexivity.
  Qed.
End Faithful.

(** *** The cores *)
Lemma with_bufs_fst par l : map fst (with_bufs par l) = l.
Proof. unfold with_bufs. rewrite map_map. cbn [fst]. apply map_id. Qed.
Lemma with_bufs_good par k : (1 < par)%nat -> good_requests par (with_bufs par (closure_reqs par k)).
Proof.
  intros Hp. unfold good_requests, with_bufs. apply Forall_map. cbn [fst snd]. unfold closure_reqs. rewrite (proj2 (Nat.ltb_lt 1 par) Hp).
  apply Forall_app. split.
  - apply Forall_forall. intros r Hr. apply repeat_spec in Hr. subst r. cbn [req_blocks]. rewrite repeat_length. reflexivity.
  - apply Forall_cons; [|apply Forall_nil]. cbn [req_blocks]. rewrite repeat_length. split; [apply Nat.mod_upper_bound; lia | reflexivity].
Qed.
Lemma soft_write_value v n k : forall st, wf16 st -> fst (soft_write_lk v n k st) = Ok (blocks_from v n k st, adv v (N.of_nat k) st).
Proof.
  induction k as [|k IH]; intros st H; cbn [soft_write_lk].
  - cbn [leak fst]. change (N.of_nat 0) with 0. rewrite adv_0 by exact H. reflexivity.
  - ez. unfold sure. cbn [fst bind]. rewrite l_soft_value, soft_gen_ks_block_eq by exact H. cbv beta iota.
    rewrite fst_rbind, IH by (apply adv_wf; exact H). cbn [bind rret fst]. rewrite blocks_from_S, adv_add by exact H.
    replace (1 + N.of_nat k) with (N.of_nat (Datatypes.S k)) by lia. reflexivity.
Qed.
Lemma core_write_value c p v n k st : wf16 st -> fst (core_write_lk c p v n k st) = core_write c p v n k st.
Proof.
  intros H. rewrite core_write_ok by exact H.
  assert (P : forall par, (1 < par)%nat -> good_requests par (with_bufs par (closure_reqs par k))) by (intros; apply with_bufs_good; assumption).
  destruct (C51_sse2 v n _ st H (P 4%nat ltac:(lia))) as (b1 & t1 & A1 & _ & B1).
  destruct (C51_avx2 v n _ st H (P 4%nat ltac:(lia))) as (b2 & t2 & A2 & _ & B2).
  destruct (C51_avx512 v n _ st H (P 16%nat ltac:(lia))) as (b3 & t3 & A3 & _ & B3).
  destruct (C51_neon v n _ st H (P 8%nat ltac:(lia))) as (b4 & t4 & A4 & _ & B4).
  rewrite with_bufs_fst in B1, B2, B3, B4.
  pose proof (soft_write_value v n k st H) as Hs.
  assert (Q : forall par (f : list req -> list N -> Res (list N * list N)) b t, f (closure_reqs par k) st = Ok (concat b, t) ->
    f (closure_reqs par k) st = Ok (blocks_from v n k st, adv v (N.of_nat k) st) -> concat b = blocks_from v n k st /\ t = adv v (N.of_nat k) st).
  { intros par f b t E1 E2. rewrite E1 in E2. split; congruence. }
  assert (W : forall c', core_write c' p v n k st = Ok (blocks_from v n k st, adv v (N.of_nat k) st)) by (intros c'; apply core_write_ok; exact H).
  destruct (Q 4%nat _ _ _ B1 (W {| c_target := X86; c_backend := CfgSse2; c_avx512 := false |})) as [D1 ->].
  destruct (Q 4%nat _ _ _ B2 (W {| c_target := X86; c_backend := CfgAvx2; c_avx512 := false |})) as [D2 ->].
  destruct (Q 16%nat _ _ _ B3 (W {| c_target := X86; c_backend := CfgAvx512; c_avx512 := true |})) as [D3 ->].
  destruct (Q 8%nat _ _ _ B4 (W {| c_target := Aarch64Neon; c_backend := NoCfg; c_avx512 := false |})) as [D4 ->].
  unfold core_write_lk. cbv zeta.
  destruct (c_backend c); try exact Hs; destruct (c_target c); try exact Hs; try destruct (c_avx512 c);
    repeat (rewrite fst_rbind; cbn [r_branch leak fst bind]);
    repeat match goal with |- context [if ?x then _ else _] => destruct x; repeat (rewrite fst_rbind; cbn [r_branch leak fst bind]) end;
    try exact Hs; rewrite ?sse2_inner_value, ?avx2_inner_value, ?avx512_inner_value, ?neon_inner_value, ?A1, ?A2, ?A3, ?A4; cbn [bind rret fst];
    rewrite ?D1, ?D2, ?D3, ?D4; reflexivity.
Qed.
Lemma salsa_write_value ck n k : forall st, fst (salsa_write_lk ck n k st) = salsa_write ck n k st.
Proof.
  induction k as [|k IH]; intros st; cbn [salsa_write_lk salsa_write]; [reflexivity|].
  ez. unfold may. cbn [fst bind]. rewrite l_salsa_value. destruct (salsa_gen_ks_block ck n st) as [[o st1]|]; cbn [bind]; [|reflexivity].
  rewrite fst_rbind, IH. destruct (salsa_write ck n k st1) as [[o' st2]|]; reflexivity.
Qed.
Lemma xnonce_ok iv : octets 24 iv -> length (xnonce iv) = nonce_len Ietf /\ bytes (xnonce iv).
Proof.
  intros [L B]. unfold xnonce. split; [rewrite app_length, skipn_length, L; reflexivity|].
  apply Forall_app. split; [repeat constructor | apply bytes_skipn; exact B].
Qed.
(** A fresh core, for key material of the right size: at block 0. *)
Definition starts {S} (I : S -> Prop) (pos : S -> N) (m : Res S) : Prop := exists s, m = Ok s /\ I s /\ pos s = 0.
Lemma chacha_starts v n key iv : cipher_ok (CChaCha v n key iv) -> starts wf16 (get_block_pos v) (new_internal v key iv).
Proof.
  intros H. assert (H' : octets 32 key /\ length iv = nonce_len v /\ bytes iv) by (destruct v; cbn [cipher_ok] in H; unfold octets in *; tauto).
  destruct H' as ([Lk Bk] & Li & Bi). exists (mk_state v key iv 0). split; [apply new_internal_ok; assumption|]. split; [apply mk_state_wf; assumption|].
  rewrite get_pos_mk by exact Lk. destruct v; reflexivity.
Qed.
Lemma xchacha_starts n key iv : octets 32 key -> octets 24 iv -> starts wf16 (get_block_pos Ietf) (xchacha_new n key iv).
Proof.
  intros [Lk Bk] Hi. destruct (xnonce_ok iv Hi) as [Lx Bx]. destruct Hi as [Li Bi].
  assert (Lf : length (firstn 16 iv) = 16%nat) by (rewrite firstn_length, Li; reflexivity).
  assert (Lh : length (hchacha n key (firstn 16 iv)) = 32%nat) by (apply hchacha_length; try assumption; apply bytes_firstn; exact Bi).
  eexists. split; [apply xchacha_new_ok; assumption|]. split; [apply mk_state_wf; try assumption; apply hchacha_bytes; assumption|].
  rewrite get_pos_mk by exact Lh. reflexivity.
Qed.
Lemma salsa_starts key iv : octets 32 key -> octets 8 iv -> starts wf16 salsa_get_pos (Ok (salsa_new key iv)).
Proof.
  intros [Lk Bk] [Li Bi]. eexists. split; [reflexivity|]. rewrite salsa_new_eq by assumption. split; [apply s_state_wf; assumption|].
  rewrite s_get_state by assumption. reflexivity.
Qed.
Lemma xsalsa_starts n key iv : octets 32 key -> octets 24 iv -> starts wf16 salsa_get_pos (Ok (xsalsa_new n key iv)).
Proof.
  intros [Lk Bk] [Li Bi]. eexists. split; [reflexivity|]. rewrite xsalsa_new_eq by assumption.
  assert (Lf : length (firstn 16 iv) = 16%nat) by (rewrite firstn_length, Li; reflexivity).
  assert (Ls : length (skipn 16 iv) = 8%nat) by (rewrite skipn_length, Li; reflexivity).
  split; [apply s_state_wf; [apply hsalsa_length | | apply hsalsa_bytes | apply bytes_skipn]; assumption|].
  rewrite s_get_state; [reflexivity | apply hsalsa_length; assumption | exact Ls].
Qed.
Lemma rabbit_key_starts ck key : octets 16 key -> starts rwf (fun _ => 0) (rabbit_key_only ck key).
Proof. intros [L B]. destruct (setup_key_ok ck key L B) as (s & E & W & _). exists s. auto. Qed.
Lemma rabbit_starts ck key iv : octets 16 key -> octets 8 iv -> starts rwf (fun _ => 0) (rabbit_new ck key iv).
Proof.
  intros [L B] [Li Bi]. destruct (setup_key_ok ck key L B) as (s & E & W & _). destruct (setup_iv_ok ck iv s Li Bi W) as (s' & E' & W' & _).
  exists s'. unfold rabbit_new, rabbit_key_only. rewrite E. cbn [bind]. auto.
Qed.
Lemma chacha_faithful e v n m m0 h : fst m = m0 -> starts wf16 (get_block_pos v) m0 ->
  fst (run_core_lk (chacha_lscore e v n) (Some (chacha_lseek v)) m h) = run_core (chacha_score e v n) (Some (chacha_seek v)) m0 h.
Proof.
  intros E (s & E0 & W & _). apply run_core_value with (I := wf16); [reflexivity | | | | | exact E |].
  - intros k t H. apply core_write_value. exact H.
  - intros k t o t' H X. apply (chacha_gen_Q _ _ _ _ _ _ _ H X).
  - intros t H. cbn [ls_rem chacha_lscore sc_rem chacha_score]. unfold chacha_rem_lk, sure. rewrite fst_rbind. cbn [fst bind].
    rewrite l_get_block_pos_value. ez. unfold remaining_blocks. cbv zeta. reflexivity.
  - split; [reflexivity|]. split.
    + intros t H. cbn [lk_get chacha_lseek]. unfold sure. cbn [fst]. rewrite l_get_block_pos_value. reflexivity.
    + intros t b H Hb. cbn [lk_set chacha_lseek]. unfold sure. cbn [fst]. rewrite l_set_block_pos_value. split; [reflexivity|].
      apply set_block_pos_wf; assumption.
  - intros t X. rewrite E0 in X. injection X as <-. exact W.
Qed.
Lemma salsa_faithful e n m m0 h : fst m = m0 -> starts wf16 salsa_get_pos m0 ->
  fst (run_core_lk (salsa_lscore e n) (Some salsa_lseek) m h) = run_core (salsa_score e n) (Some salsa_seek) m0 h.
Proof.
  intros E (s & E0 & W & _). apply run_core_value with (I := wf16); [reflexivity | | | | | exact E |].
  - intros k t H. apply salsa_write_value.
  - intros k t o t' H X. apply (salsa_gen_Q _ _ _ _ _ _ H X).
  - intros t H. cbn [ls_rem salsa_lscore sc_rem salsa_score]. unfold salsa_rem_lk, sure. rewrite fst_rbind. cbn [fst bind].
    rewrite l_salsa_get_value. ez. unfold salsa_remaining. cbv zeta. reflexivity.
  - split; [reflexivity|]. split.
    + intros t H. cbn [lk_get salsa_lseek]. unfold sure. cbn [fst]. rewrite l_salsa_get_value. reflexivity.
    + intros t b H Hb. cbn [lk_set salsa_lseek]. unfold sure. cbn [fst]. rewrite l_salsa_set_value. split; [reflexivity|].
      apply salsa_set_wf; assumption.
  - intros t X. rewrite E0 in X. injection X as <-. exact W.
Qed.
Lemma rabbit_faithful e m m0 h : fst m = m0 -> starts rwf (fun _ => 0) m0 ->
  fst (run_core_lk (rabbit_lscore e) None m h) = run_core (rabbit_score e) None m0 h.
Proof.
  intros E (s & E0 & W & _). apply run_core_value with (I := rwf); [reflexivity | | | | exact I | exact E |].
  - intros k t H. apply r_rabbit_write_value.
  - intros k t o t' H X. apply (rabbit_gen_Q _ _ _ _ _ H X).
  - intros t H. reflexivity.
  - intros t X. rewrite E0 in X. injection X as <-. exact W.
Qed.
Theorem C77_faithful e k key iv h : cipher_ok (of_kind k key iv) -> fst (kind_run_lk e k key iv h) = cipher_run e (of_kind k key iv) h.
Proof.
  intros Hc. destruct k as [v n|n|n|n| |]; cbn [kind_run_lk of_kind cipher_run].
  - apply chacha_faithful; [apply l_new_internal_value | apply (chacha_starts _ n); exact Hc].
  - destruct Hc as [Hk Hi]. apply chacha_faithful; [apply l_xchacha_new_value; [apply Hk | apply Hi] | apply xchacha_starts; assumption].
  - destruct Hc as [Hk Hi]. apply salsa_faithful; [unfold sure; cbn [fst]; rewrite l_salsa_new_value; reflexivity | apply salsa_starts; assumption].
  - destruct Hc as [Hk Hi]. apply salsa_faithful; [unfold sure; cbn [fst]; rewrite l_xsalsa_new_value; reflexivity | apply xsalsa_starts; assumption].
  - destruct Hc as [Hk Hi]. apply rabbit_faithful; [apply r_rabbit_new_value | apply rabbit_starts; assumption].
  - apply rabbit_faithful; [apply r_setup_key_value | apply rabbit_key_starts; assumption].
Qed.
Print Assumptions C77_faithful.

(** The leaking copy of a ChaCha core runs the backend that the code runs ([C52_selects] ties the
    choice to the machine): its trace is that backend's, behind the outcomes of the feature tests. *)
Lemma snd_joined {A} (m : LR (list (list A) * list N)) : snd (dol (bufs, st') <- m; rret (concat bufs, st')) = snd m.
Proof. destruct m as [[[b st']|] t]; cbn [rbind rret snd]; [apply app_nil_r|reflexivity]. Qed.
Lemma snd_branch {A} b (f : bool -> LR A) : snd (dol x <- r_branch b; f x) = [Br b] ++ snd (f b).
Proof. unfold r_branch, leak, rbind. destruct (f b) as [y u]. reflexivity. Qed.
Theorem C77_dispatch c p v n k st :
  exists tests, (length tests <= 3)%nat
  /\ snd (core_write_lk c p v n k st) = map Br tests ++
     match Isa.cipher_backend c p with
     | Isa.BSoft => snd (soft_write_lk v n k st)
     | Isa.BSse2 => snd (sse2_inner_lk v n (with_bufs 4 (closure_reqs 4 k)) st)
     | Isa.BAvx2 => snd (avx2_inner_lk v n (with_bufs 4 (closure_reqs 4 k)) st)
     | Isa.BAvx512 => snd (avx512_inner_lk v n (with_bufs 16 (closure_reqs 16 k)) st)
     | Isa.BNeon => snd (neon_inner_lk v n (with_bufs 8 (closure_reqs 8 k)) st)
     end.
Proof.
  destruct c as [t b a], p as [h5 h2 hs]. unfold core_write_lk, Isa.cipher_backend. cbv zeta. cbn [c_target c_backend c_avx512 has_avx512 has_avx2 has_sse2].
  destruct b, t, a, h5, h2, hs; cbv beta iota; cbn [andb]; rewrite ?snd_branch; cbv beta iota; rewrite ?snd_branch; cbv beta iota; rewrite ?snd_branch; cbv beta iota; rewrite ?snd_joined;
    first [exists []; split; [cbn; lia|reflexivity] | eexists [_]; split; [cbn; lia|reflexivity] | eexists [_; _]; split; [cbn; lia|reflexivity] | eexists [_; _; _]; split; [cbn; lia|reflexivity]].
Qed.
Print Assumptions C77_dispatch.

(** ** Two runs *)
(** Calls that may differ in their data only. *)
Definition same_shape (o1 o2 : op) : Prop :=
  match o1, o2 with
  | Apply d1, Apply d2 => length d1 = length d2
  | ApplyB2b d1 m1, ApplyB2b d2 m2 => length d1 = length d2 /\ m1 = m2
  | Write n1, Write n2 => n1 = n2
  | Seek p1, Seek p2 => p1 = p2
  | CurPos t1, CurPos t2 => t1 = t2
  | _, _ => False
  end.
(** Answers that may differ in the bytes only. *)
Definition same_answer (r1 r2 : SpecStream.ret) : Prop :=
  match r1, r2 with
  | Bytes a, Bytes b => length a = length b
  | Pos p, Pos q => p = q
  | Done, Done | Err, Err => True
  | _, _ => False
  end.

Lemma simt_branch {A B} (Q : A -> B -> Prop) (b : bool) m1 m2 k1 k2 : (b = true -> simt Q m1 m2) -> (b = false -> simt Q k1 k2) ->
  simt Q (dol c <- r_branch b; if c then m1 else k1) (dol c <- r_branch b; if c then m2 else k2).
Proof.
  intros H1 H2. eapply simt_bind with (R := fun x y => x = b /\ y = b); [apply simt_leak; split; reflexivity|].
  intros ? ? [-> ->]. destruct b; auto.
Qed.
Section Twice.
  Context {S : Type} (C : lscore S) (K : option (lsseek S)) (R : S -> S -> Prop).
  Definition gen_rel (x y : list N * S) : Prop := length (fst x) = length (fst y) /\ R (snd x) (snd y).
  Context (HG : forall k s t, R s t -> simt gen_rel (ls_gen C k s) (ls_gen C k t))
    (HR : forall s t, R s t -> simt eq (ls_rem C s) (ls_rem C t))
    (HK : match K with
          | None => True
          | Some k => (forall s t, R s t -> simt eq (lk_get k s) (lk_get k t))
              /\ (forall s t b, R s t -> b < lk_mod k -> simt R (lk_set k s b) (lk_set k t b))
          end).
  Definition w_rel (w1 w2 : wrapper S) : Prop :=
    R (w_core w1) (w_core w2) /\ length (w_buf w1) = length (w_buf w2) /\ w_cur w1 = w_cur w2.
  Definition out_rel (x y : list N * wrapper S) : Prop := length (fst x) = length (fst y) /\ w_rel (snd x) (snd y).
  Definition opt_rel (x y : option (list N * wrapper S)) : Prop :=
    match x, y with Some a, Some b => out_rel a b | None, None => True | _, _ => False end.

  Lemma write_block_sim s t b1 b2 cur k : R s t -> length b1 = length b2 ->
    simt out_rel (write_block_lk C s b1 cur k) (write_block_lk C t b2 cur k).
  Proof using HG.
    intros H Hb. unfold write_block_lk. apply simt_branch; intros _; [apply simt_ret; repeat split; assumption|].
    sb. eapply simt_bind; [apply HG; exact H|]. intros [o1 s1] [o2 s2] [Lo Rs]. cbn [fst snd] in *.
    eapply simt_bind with (R := fun x y => length x = length y); [apply simt_leak; rewrite !firstn_length, Lo; reflexivity|].
    intros u1 u2 E. apply simt_ret. repeat split; assumption.
  Qed.
  Lemma unchecked_write_sim w1 w2 len : w_rel w1 w2 -> simt out_rel (unchecked_write_lk C w1 len) (unchecked_write_lk C w2 len).
  Proof using HG.
    intros (Hr & Hb & Hc). unfold unchecked_write_lk, read_cached_lk. cbv zeta. rewrite Hc.
    eapply simt_bind with (R := fun x y : list N * nat => length (fst x) = length (fst y) /\ snd x = snd y).
    { apply simt_leak. cbn [fst snd]. split; [|reflexivity]. unfold slice. rewrite !firstn_length, !skipn_length, Hb. reflexivity. }
    intros [h1 c1] [h2 c2] [Lh Ec]. cbn [fst snd] in *. subst c2. rewrite Lh.
    eapply simt_bind; [apply HG; exact Hr|]. intros [o1 s1] [o2 s2] [Lo Rs]. cbn [fst snd] in *.
    eapply simt_bind; [apply write_block_sim; assumption|]. intros [t1 v1] [t2 v2] [Lt Hv]. cbn [fst snd] in *.
    apply simt_ret. split; [cbn [fst]; rewrite !app_length, Lh, Lo, Lt; reflexivity | exact Hv].
  Qed.
  Lemma check_sim w1 w2 len : w_rel w1 w2 -> simt eq (check_remaining_lk C w1 len) (check_remaining_lk C w2 len).
  Proof using HR.
    intros (Hr & Hb & Hc). unfold check_remaining_lk. rewrite Hc. eapply simt_bind; [apply HR; exact Hr|]. intros r ? <-. apply simt_refl.
  Qed.
  Lemma try_write_sim w1 w2 len : w_rel w1 w2 -> simt opt_rel (try_write_lk C w1 len) (try_write_lk C w2 len).
  Proof using HG HR.
    intros H. unfold try_write_lk. eapply simt_bind; [apply check_sim; exact H|]. intros c ? <-.
    apply simt_branch; intros _; [|apply simt_ret; exact I].
    eapply simt_bind; [apply unchecked_write_sim; exact H|]. intros x y Hx. apply simt_ret. exact Hx.
  Qed.
  Lemma try_apply_sim w1 w2 d1 d2 : w_rel w1 w2 -> length d1 = length d2 -> simt opt_rel (try_apply_lk C w1 d1) (try_apply_lk C w2 d2).
  Proof using HG HR.
    intros H Hd. unfold try_apply_lk. rewrite Hd. eapply simt_bind; [apply check_sim; exact H|]. intros c ? <-.
    apply simt_branch; intros _; [|apply simt_ret; exact I].
    unfold unchecked_apply_lk. rewrite Hd. eapply simt_bind with (R := out_rel).
    - eapply simt_bind; [apply unchecked_write_sim; exact H|]. intros [k1 v1] [k2 v2] [Lk Hv]. cbn [fst snd] in *.
      eapply simt_bind with (R := fun x y => length x = length y); [apply simt_leak; rewrite !xorb_length, Hd, Lk; reflexivity|].
      intros x y E. apply simt_ret. split; assumption.
    - intros x y Hx. apply simt_ret. exact Hx.
  Qed.
  Definition answer_rel (x y : SpecStream.ret * wrapper S) : Prop := same_answer (fst x) (fst y) /\ w_rel (snd x) (snd y).
  Lemma step_sim w1 w2 o1 o2 : w_rel w1 w2 -> same_shape o1 o2 -> simt answer_rel (step_lk C K w1 o1) (step_lk C K w2 o2).
  Proof using HG HR HK.
    intros H Ho.
    assert (L : forall m1 m2, simt opt_rel m1 m2 ->
      simt answer_rel
        (dol r <- m1; match r with Some (b, w') => leak [Br true] (Ok (Bytes b, w')) | None => leak [Br false] (Ok (Err, w1)) end)
        (dol r <- m2; match r with Some (b, w') => leak [Br true] (Ok (Bytes b, w')) | None => leak [Br false] (Ok (Err, w2)) end)).
    { intros m1 m2 Hm. eapply simt_bind; [exact Hm|]. intros [[a x]|] [[b y]|] Hx; try contradiction.
      - apply simt_leak. split; [exact (proj1 Hx) | exact (proj2 Hx)].
      - apply simt_leak. split; [exact I | exact H]. }
    destruct o1 as [d1|d1 m1|k1|p1|t1], o2 as [d2|d2 m2|k2|p2|t2]; try contradiction; cbn [same_shape] in Ho; cbn [step_lk].
    - apply L, try_apply_sim; assumption.
    - destruct Ho as [Ho <-]. apply L. unfold apply_b2b_lk. rewrite Ho. apply simt_branch; intros _; [apply try_apply_sim; assumption | apply simt_ret; exact I].
    - subst k2. apply L, try_write_sim. exact H.
    - subst p2. destruct K as [k|]; [|apply simt_ret; split; [exact I | exact H]]. destruct HK as [Hg Hs]. destruct H as (Hr & Hb & Hc).
      eapply simt_bind with (R := fun x y => match x, y with Some a, Some b => w_rel a b | None, None => True | _, _ => False end).
      + unfold try_seek_lk. apply simt_branch; intros Hp; [apply N.ltb_lt in Hp | apply simt_ret; exact I].
        eapply simt_bind; [apply Hs; eassumption|]. intros s t Hst.
        eapply simt_bind; [apply write_block_sim; [exact Hst | exact Hb]|]. intros [a x] [b y] [_ Hx]. apply simt_ret. exact Hx.
      + intros [x|] [y|] Hx; try contradiction; apply simt_leak; (split; [exact I|]); [exact Hx | repeat split; assumption].
    - subst t2. destruct K as [k|]; [|apply simt_ret; split; [exact I | exact H]]. destruct HK as [Hg Hs]. pose proof H as (Hr & Hb & Hc).
      eapply simt_bind with (R := eq).
      + unfold try_current_pos_lk. rewrite Hc. eapply simt_bind; [apply Hg; exact Hr|]. intros b ? <-. apply simt_refl.
      + intros [x|] ? <-; apply simt_leak; (split; [|exact H]); [reflexivity | exact I].
  Qed.
  Definition run_rel (x y : list SpecStream.ret * wrapper S) : Prop := Forall2 same_answer (fst x) (fst y) /\ w_rel (snd x) (snd y).
  Lemma run_sim h1 h2 : Forall2 same_shape h1 h2 -> forall w1 w2, w_rel w1 w2 -> simt run_rel (run_lk C K w1 h1) (run_lk C K w2 h2).
  Proof using HG HR HK.
    induction 1 as [|o1 o2 h1 h2 Ho Hh IH]; intros w1 w2 H; cbn [run_lk]; [apply simt_ret; split; [constructor | exact H]|].
    eapply simt_bind; [apply step_sim; eassumption|]. intros [r1 v1] [r2 v2] [Er Hv]. cbn [fst snd] in *.
    eapply simt_bind; [apply IH; exact Hv|]. intros [rs1 x1] [rs2 x2] [Ers Hx]. cbn [fst snd] in *.
    apply simt_ret. split; [constructor; assumption | exact Hx].
  Qed.
  Lemma run_core_sim m1 m2 h1 h2 : simt R m1 m2 -> Forall2 same_shape h1 h2 ->
    simt (Forall2 same_answer) (run_core_lk C K m1 h1) (run_core_lk C K m2 h2).
  Proof using HG HR HK.
    intros Hm Hh. unfold run_core_lk. eapply simt_bind; [exact Hm|]. intros s t Hst.
    eapply simt_bind; [apply run_sim; [exact Hh | split; [exact Hst | split; reflexivity]]|]. intros [rs1 x1] [rs2 x2] [Ers _].
    apply simt_ret. exact Ers.
  Qed.
End Twice.

(** *** The cores *)
Lemma simt_ok {A B} (R : A -> B -> Prop) (m1 : LR A) (m2 : LR B) x y : fst m1 = Ok x -> fst m2 = Ok y -> snd m1 = snd m2 -> R x y -> simt R m1 m2.
Proof. intros E1 E2 E H. split; [exact E|]. rewrite E1, E2. exact H. Qed.
Definition chacha_rel (v : variant) (s t : list N) : Prop := wf16 s /\ wf16 t /\ get_block_pos v s = get_block_pos v t.
Definition salsa_rel (s t : list N) : Prop := wf16 s /\ wf16 t /\ salsa_get_pos s = salsa_get_pos t.
Definition rabbit_rel (s t : rstate) : Prop := rwf s /\ rwf t.

Lemma soft_write_trace v n k : forall s t, length s = length t -> wf16 s -> wf16 t -> snd (soft_write_lk v n k s) = snd (soft_write_lk v n k t).
Proof.
  intros s t _ Hs Ht. apply (sim_traces TT); [|rewrite soft_write_value by exact Hs; eauto | rewrite soft_write_value by exact Ht; eauto].
  revert s t Hs Ht. induction k as [|k IH]; intros s t Hs Ht; cbn [soft_write_lk]; [apply sim_ok; exact I|].
  eapply sim_bind with (R := TT); [apply sim_ok; exact I|]. intros _ _ _.
  eapply sim_bind with (R := fun x y => wf16 (snd x) /\ wf16 (snd y)).
  - intros x y E1 E2. unfold sure in *. cbn [fst snd] in *. rewrite !l_soft_trace. destruct Hs as [Ls Ws], Ht as [Lt Wt]. rewrite Ls, Lt.
    split; [reflexivity|]. injection E1 as <-. injection E2 as <-. rewrite !l_soft_value, !soft_gen_ks_block_eq by (split; assumption).
    cbn [snd]. split; apply adv_wf; split; assumption.
  - intros [o1 s1] [o2 s2] [H1 H2]. cbn [snd] in *. eapply sim_bind with (R := TT); [|intros [? ?] [? ?] _; apply sim_ret; exact I].
    apply sim_weaken with (R := TT); [auto|]. apply IH; assumption.
Qed.
Lemma core_write_trace c p v n k s t : wf16 s -> wf16 t -> snd (core_write_lk c p v n k s) = snd (core_write_lk c p v n k t).
Proof.
  intros Hs Ht. assert (L : length s = length t) by (destruct Hs, Ht; congruence).
  apply (sim_traces TT); [|rewrite core_write_value, core_write_ok by assumption; eauto | rewrite core_write_value, core_write_ok by assumption; eauto].
  assert (So : sim TT (soft_write_lk v n k s) (soft_write_lk v n k t)).
  { intros x y _ _. split; [apply soft_write_trace; assumption | exact I]. }
  assert (A : forall par, (1 < par)%nat -> Forall2 alike (with_bufs par (closure_reqs par k)) (with_bufs par (closure_reqs par k))).
  { intros par Hp. apply (good_alike par); [apply with_bufs_good; exact Hp | apply with_bufs_good; exact Hp | reflexivity]. }
  assert (J : forall m1 m2 : LR (list (list N) * list N), sim TT m1 m2 ->
    sim TT (dol (bufs, st') <- m1; rret (concat bufs, st')) (dol (bufs, st') <- m2; rret (concat bufs, st'))).
  { intros m1 m2 H. eapply sim_bind; [exact H|]. intros [? ?] [? ?] _. apply sim_ret. exact I. }
  assert (S1 : sim TT (sse2_inner_lk v n (with_bufs 4 (closure_reqs 4 k)) s) (sse2_inner_lk v n (with_bufs 4 (closure_reqs 4 k)) t)) by (apply sim_sse2_inner; [apply A; lia | exact L]).
  assert (S2 : sim TT (avx2_inner_lk v n (with_bufs 4 (closure_reqs 4 k)) s) (avx2_inner_lk v n (with_bufs 4 (closure_reqs 4 k)) t)) by (apply sim_avx2_inner; [apply A; lia | exact L]).
  assert (S3 : sim TT (avx512_inner_lk v n (with_bufs 16 (closure_reqs 16 k)) s) (avx512_inner_lk v n (with_bufs 16 (closure_reqs 16 k)) t)) by (apply sim_avx512_inner; [apply A; lia | exact L]).
  assert (S4 : sim TT (neon_inner_lk v n (with_bufs 8 (closure_reqs 8 k)) s) (neon_inner_lk v n (with_bufs 8 (closure_reqs 8 k)) t)) by (apply sim_neon_inner; [apply A; lia | exact L]).
  assert (Br : forall (b : bool) (m1 m2 k1 k2 : LR (list N * list N)), sim TT m1 m2 -> sim TT k1 k2 ->
    sim TT (dol c <- r_branch b; if c then m1 else k1) (dol c <- r_branch b; if c then m2 else k2)).
  { intros b m1 m2 k1 k2 H1 H2. eapply sim_bind with (R := eq); [apply sim_ok; reflexivity|]. intros x ? <-. destruct x; assumption. }
  unfold core_write_lk. cbv zeta.
  destruct (c_backend c); try exact So; destruct (c_target c); try exact So; try destruct (c_avx512 c);
    repeat apply Br; try exact So; apply J; assumption.
Qed.
Lemma chacha_gen_sim e v n k s t : chacha_rel v s t ->
  simt (gen_rel (chacha_rel v)) (ls_gen (chacha_lscore e v n) k s) (ls_gen (chacha_lscore e v n) k t).
Proof.
  intros (Hs & Ht & Hp). cbn [ls_gen chacha_lscore].
  apply simt_ok with (x := (blocks_from v n k s, adv v (N.of_nat k) s)) (y := (blocks_from v n k t, adv v (N.of_nat k) t)).
  - rewrite core_write_value, core_write_ok by assumption. reflexivity.
  - rewrite core_write_value, core_write_ok by assumption. reflexivity.
  - apply core_write_trace; assumption.
  - split; cbn [fst snd]; [rewrite !blocks_from_length by assumption; reflexivity|].
    split; [apply adv_wf; exact Hs|]. split; [apply adv_wf; exact Ht|].
    destruct (C08_only_the_counter_moves (e_cfg e) (e_cpu e) v n k s Hs) as (o1 & s' & E1 & _ & _ & P1).
    destruct (C08_only_the_counter_moves (e_cfg e) (e_cpu e) v n k t Ht) as (o2 & t' & E2 & _ & _ & P2).
    rewrite core_write_ok in E1, E2 by assumption.
    assert (X1 : s' = adv v (N.of_nat k) s) by congruence. assert (X2 : t' = adv v (N.of_nat k) t) by congruence.
    rewrite <- X1, <- X2, P1, P2, Hp. reflexivity.
Qed.
Lemma pos_trace v s t : trace (l_get_block_pos v s) = trace (l_get_block_pos v t).
Proof. destruct v; unfold l_get_block_pos; tstep; reflexivity. Qed.
Lemma chacha_rem_sim v usz s t : get_block_pos v s = get_block_pos v t -> simt eq (chacha_rem_lk v usz s) (chacha_rem_lk v usz t).
Proof.
  intros Hp. unfold chacha_rem_lk. eapply simt_bind with (R := eq); [|intros x ? <-; apply simt_refl].
  unfold sure. split; cbn [fst snd]; [apply pos_trace | rewrite !l_get_block_pos_value; exact Hp].
Qed.
Lemma chacha_timing e v n m1 m2 h1 h2 : simt (chacha_rel v) m1 m2 -> Forall2 same_shape h1 h2 ->
  simt (Forall2 same_answer) (run_core_lk (chacha_lscore e v n) (Some (chacha_lseek v)) m1 h1)
                             (run_core_lk (chacha_lscore e v n) (Some (chacha_lseek v)) m2 h2).
Proof.
  intros Hm Hh. apply run_core_sim with (R := chacha_rel v); try assumption.
  - intros k s t H. apply chacha_gen_sim. exact H.
  - intros s t (_ & _ & H). apply chacha_rem_sim. exact H.
  - split.
    + intros s t (_ & _ & H). cbn [lk_get chacha_lseek]. unfold sure. split; cbn [fst snd]; [apply pos_trace | rewrite !l_get_block_pos_value; exact H].
    + intros s t b (Hs & Ht & H) Hb. cbn [lk_set chacha_lseek lk_mod] in *. unfold sure. split; cbn [fst snd].
      * destruct v; unfold l_set_block_pos; tstep; reflexivity.
      * rewrite !l_set_block_pos_value.
        assert (Hb' : b < 2 ^ ctr_bits v) by (destruct v; exact Hb).
        destruct (C09_block_seek v s b Hs Hb') as (A1 & B1 & _), (C09_block_seek v t b Ht Hb') as (A2 & B2 & _).
        split; [exact B1|]. split; [exact B2|]. rewrite A1, A2. reflexivity.
Qed.
Lemma salsa_block_trace ck n s t : length s = length t -> salsa_get_pos s = salsa_get_pos t ->
  trace (l_salsa_gen_ks_block ck n s) = trace (l_salsa_gen_ks_block ck n t).
Proof.
  intros L Hp. unfold l_salsa_gen_ks_block. tstep.
  rewrite !l_s_run_rounds_trace, !l_salsa_get_trace, !l_salsa_get_value, !l_s_run_rounds_value, L, Hp.
  apply (f_equal2 (@app event)); [reflexivity|]. apply (f_equal2 (@app event)); [reflexivity|]. apply (f_equal2 (@app event)); [reflexivity|].
  destruct (value (l_add_ck ck M64 (salsa_get_pos t) 1)); tstep; [|reflexivity].
  rewrite !l_salsa_set_trace, !l_output_trace, !s_run_rounds_length, L. reflexivity.
Qed.
Lemma salsa_gen_sim e n k : forall s t, salsa_rel s t ->
  simt (gen_rel salsa_rel) (ls_gen (salsa_lscore e n) k s) (ls_gen (salsa_lscore e n) k t).
Proof.
  cbn [ls_gen salsa_lscore]. induction k as [|k IH]; intros s t H; cbn [salsa_write_lk]; [apply simt_leak; split; [reflexivity | exact H]|].
  eapply simt_bind with (R := TT); [apply simt_leak; exact I|]. intros _ _ _.
  eapply simt_bind with (R := gen_rel salsa_rel).
  - destruct H as (Hs & Ht & Hp). unfold may. split; cbn [fst snd]; [apply salsa_block_trace; [destruct Hs, Ht; congruence | exact Hp]|].
    rewrite !l_salsa_value.
    pose proof (C33_counter (e_ck e) n 1 s Hs) as P1. pose proof (C33_counter (e_ck e) n 1 t Ht) as P2.
    cbn [salsa_write] in P1, P2. rewrite <- Hp in P2.
    destruct (salsa_gen_ks_block (e_ck e) n s) as [[o1 s1]|], (salsa_gen_ks_block (e_ck e) n t) as [[o2 t1]|]; cbn [bind] in P1, P2; try exact I.
    + rewrite !app_nil_r in *. destruct P1 as (L1 & W1 & Q1 & _), P2 as (L2 & W2 & Q2 & _).
      split; cbn [fst snd]; [congruence|]. split; [exact W1|]. split; [exact W2|]. rewrite Q1, Q2. reflexivity.
    + destruct P1 as (_ & _ & _ & _ & _ & P1), P2 as [E P2]. specialize (P1 E). lia.
    + destruct P2 as (_ & _ & _ & _ & _ & P2), P1 as [E P1]. specialize (P2 E). lia.
  - intros [o1 s1] [o2 s2] [Lo Hr]. cbn [fst snd] in *. eapply simt_bind; [apply IH; exact Hr|].
    intros [p1 u1] [p2 u2] [Lp Hu]. cbn [fst snd] in *. apply simt_ret. split; [cbn [fst]; rewrite !app_length, Lo, Lp; reflexivity | exact Hu].
Qed.
Lemma salsa_timing e n m1 m2 h1 h2 : simt salsa_rel m1 m2 -> Forall2 same_shape h1 h2 ->
  simt (Forall2 same_answer) (run_core_lk (salsa_lscore e n) (Some salsa_lseek) m1 h1) (run_core_lk (salsa_lscore e n) (Some salsa_lseek) m2 h2).
Proof.
  assert (G : forall s t, salsa_get_pos s = salsa_get_pos t -> simt eq (sure (l_salsa_get_pos s)) (sure (l_salsa_get_pos t))).
  { intros s t H. unfold sure. split; cbn [fst snd]; [rewrite !l_salsa_get_trace; reflexivity | rewrite !l_salsa_get_value; exact H]. }
  intros Hm Hh. apply run_core_sim with (R := salsa_rel); try assumption.
  - intros k s t H. apply salsa_gen_sim. exact H.
  - intros s t (_ & _ & H). cbn [ls_rem salsa_lscore]. unfold salsa_rem_lk. eapply simt_bind; [apply G; exact H|]. intros x ? <-. apply simt_refl.
  - split.
    + intros s t (_ & _ & H). apply G. exact H.
    + intros s t b (Hs & Ht & H) Hb. cbn [lk_set salsa_lseek lk_mod] in *. unfold sure. split; cbn [fst snd]; [rewrite !l_salsa_set_trace; reflexivity|].
      rewrite !l_salsa_set_value. destruct (C33_block_seek s b Hs Hb) as (A1 & B1 & _), (C33_block_seek t b Ht Hb) as (A2 & B2 & _).
      split; [exact B1|]. split; [exact B2|]. rewrite A1, A2. reflexivity.
Qed.
Lemma rabbit_timing e m1 m2 h1 h2 : simt rabbit_rel m1 m2 -> Forall2 same_shape h1 h2 ->
  simt (Forall2 same_answer) (run_core_lk (rabbit_lscore e) None m1 h1) (run_core_lk (rabbit_lscore e) None m2 h2).
Proof.
  intros Hm Hh. apply run_core_sim with (R := rabbit_rel); try assumption; [| |exact I].
  - intros k s t [Hs Ht]. cbn [ls_gen rabbit_lscore].
    destruct (rabbit_write_ok (e_ck e) k s Hs) as (s1 & E1 & _), (rabbit_write_ok (e_ck e) k t Ht) as (t1 & E2 & _).
    destruct (rabbit_gen_Q e k s _ _ Hs E1) as [W1 L1], (rabbit_gen_Q e k t _ _ Ht E2) as [W2 L2].
    eapply simt_ok; [rewrite r_rabbit_write_value; exact E1 | rewrite r_rabbit_write_value; exact E2 | |].
    + apply (sim_traces TT); [apply sim_rabbit_write | |]; rewrite r_rabbit_write_value; eauto.
    + split; [cbn [fst]; rewrite L1, L2; reflexivity | split; [exact W1 | exact W2]].
  - intros s t _. apply simt_refl.
Qed.

(** ** C77 *)
(** Two keys, two IVs, two lots of data: the same branches and the same addresses, call by
    call, from the constructor on; and the answers have the same shape.  A panic, if any
    (Salsa, with overflow checks), comes at the same point. *)
Theorem C77_timing e k key1 iv1 key2 iv2 h1 h2 : cipher_ok (of_kind k key1 iv1) -> cipher_ok (of_kind k key2 iv2) ->
  Forall2 same_shape h1 h2 ->
  snd (kind_run_lk e k key1 iv1 h1) = snd (kind_run_lk e k key2 iv2 h2)
  /\ match cipher_run e (of_kind k key1 iv1) h1, cipher_run e (of_kind k key2 iv2) h2 with
     | Ok rs1, Ok rs2 => Forall2 same_answer rs1 rs2
     | Panic, Panic => True
     | _, _ => False
     end.
Proof.
  intros H1 H2 Hh. rewrite <- !C77_faithful by assumption.
  change (simt (Forall2 same_answer) (kind_run_lk e k key1 iv1 h1) (kind_run_lk e k key2 iv2 h2)).
  destruct k as [v n|n|n|n| |]; cbn [kind_run_lk of_kind] in *.
  - apply chacha_timing; [|exact Hh]. destruct (chacha_starts v n _ _ H1) as (s & E1 & W1 & P1), (chacha_starts v n _ _ H2) as (t & E2 & W2 & P2).
    eapply simt_ok; [unfold may; cbn [fst]; rewrite l_new_internal_value; eassumption | unfold may; cbn [fst]; rewrite l_new_internal_value; eassumption | |].
    + unfold may. cbn [snd]. destruct v, H1 as [[] []], H2 as [[] []]; apply l_new_internal_trace; congruence.
    + split; [exact W1|]. split; [exact W2 | congruence].
  - destruct H1 as [[A1 A2] [A3 A4]], H2 as [[B1 B2] [B3 B4]]. apply chacha_timing; [|exact Hh].
    destruct (xchacha_starts n key1 iv1) as (s & E1 & W1 & P1); [split; assumption | split; assumption|].
    destruct (xchacha_starts n key2 iv2) as (t & E2 & W2 & P2); [split; assumption | split; assumption|].
    eapply simt_ok; [unfold may; cbn [fst]; rewrite l_xchacha_new_value; eassumption | unfold may; cbn [fst]; rewrite l_xchacha_new_value; eassumption | |].
    + unfold may. cbn [snd]. apply l_xchacha_new_trace; assumption.
    + split; [exact W1|]. split; [exact W2 | congruence].
  - destruct H1 as [[A1 A2] [A3 A4]], H2 as [[B1 B2] [B3 B4]]. apply salsa_timing; [|exact Hh].
    destruct (salsa_starts key1 iv1) as (s & E1 & W1 & P1); [split; assumption | split; assumption|].
    destruct (salsa_starts key2 iv2) as (t & E2 & W2 & P2); [split; assumption | split; assumption|].
    eapply simt_ok; [unfold sure; cbn [fst]; rewrite l_salsa_new_value; eassumption | unfold sure; cbn [fst]; rewrite l_salsa_new_value; eassumption | |].
    + unfold sure. cbn [snd]. apply l_salsa_new_trace; assumption.
    + split; [exact W1|]. split; [exact W2 | congruence].
  - destruct H1 as [[A1 A2] [A3 A4]], H2 as [[B1 B2] [B3 B4]]. apply salsa_timing; [|exact Hh].
    destruct (xsalsa_starts n key1 iv1) as (s & E1 & W1 & P1); [split; assumption | split; assumption|].
    destruct (xsalsa_starts n key2 iv2) as (t & E2 & W2 & P2); [split; assumption | split; assumption|].
    eapply simt_ok; [unfold sure; cbn [fst]; rewrite l_xsalsa_new_value; eassumption | unfold sure; cbn [fst]; rewrite l_xsalsa_new_value; eassumption | |].
    + unfold sure. cbn [snd]. apply l_xsalsa_new_trace; assumption.
    + split; [exact W1|]. split; [exact W2 | congruence].
  - destruct H1 as [A B], H2 as [C D]. apply rabbit_timing; [|exact Hh].
    destruct (rabbit_starts (e_ck e) key1 iv1 A B) as (s & E1 & W1 & _), (rabbit_starts (e_ck e) key2 iv2 C D) as (t & E2 & W2 & _).
    eapply simt_ok; [rewrite r_rabbit_new_value; exact E1 | rewrite r_rabbit_new_value; exact E2 | | split; assumption].
    apply (sim_traces TT); [apply sim_rabbit_new | |]; rewrite r_rabbit_new_value; eauto.
  - apply rabbit_timing; [|exact Hh].
    destruct (rabbit_key_starts (e_ck e) key1 H1) as (s & E1 & W1 & _), (rabbit_key_starts (e_ck e) key2 H2) as (t & E2 & W2 & _).
    unfold r_rabbit_key_only, rabbit_key_only in *.
    eapply simt_ok; [rewrite r_setup_key_value; exact E1 | rewrite r_setup_key_value; exact E2 | | split; assumption].
    apply (sim_traces TT); [apply sim_setup_key | |]; rewrite r_setup_key_value; eauto.
Qed.
Print Assumptions C77_timing.

(** ** The hypotheses are satisfiable, and the traces are not empty *)
Example C77_satisfiable :
  cipher_ok (of_kind (KXSalsa 10) ex_key ex_nonce24) /\ cipher_ok (of_kind (KXSalsa 10) (repeat 7 32) (repeat 9 24))
  /\ Forall2 same_shape [Apply [1; 2; 3]; Seek 130; ApplyB2b [4; 5] 2; CurPos 1000; Write 200] [Apply [0; 0; 0]; Seek 130; ApplyB2b [9; 9] 2; CurPos 1000; Write 200].
Proof. split; [cbn [of_kind cipher_ok]; checks|]. split; [cbn [of_kind cipher_ok]; checks|]. repeat constructor. Qed.
(** The lengths and positions themselves do show: one byte more, another trace. *)
Example C77_lengths_show :
  length (snd (kind_run_lk ex_env (KSalsa 4) ex_key ex_nonce8 [Write 3; Seek 70])) = 1341%nat
  /\ snd (kind_run_lk ex_env (KSalsa 4) ex_key ex_nonce8 [Write 3]) <> snd (kind_run_lk ex_env (KSalsa 4) ex_key ex_nonce8 [Write 4]).
Proof. split; [vm_compute; reflexivity | vm_compute; discriminate]. Qed.
