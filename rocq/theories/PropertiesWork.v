(** C91: how much work a history makes. *)
From Verif Require Import Word Res WordLemmas PropCommon SpecStream SpecChaCha SpecSalsa SpecRabbit SpecHC256 ChaChaCore ChaChaProofs ChaChaBackend ChaChaDispatch XChaCha ChaChaDispatchProofs
  CipherWrapper WrapperProofs Salsa SalsaProofs Rabbit RabbitProofs Hc256 Hc256Proofs Rc4 Rc4Proofs Ciphers CiphersProofs PropertiesStream Fast Work.
From Coq Require Import ZArith Lia ZifyBool ZifyNat ZifyN.
Ltac Zify.zify_post_hook ::= Z.div_mod_to_equations.

(** ** The specification: from positions alone *)
(** Keystream bytes left over from the block in which position [p] lies. *)
Definition left_over (bs : nat) (p : N) : nat := N.to_nat ((N.of_nat bs - p mod N.of_nat bs) mod N.of_nat bs).
(** A granted request of [n] bytes at [p]: what is left over is used first; whole blocks are
    asked for at once; a last partial block alone. *)
Definition asked_bytes (bs : nat) (p : N) (n : nat) : list nat :=
  let rest := (n - left_over bs p)%nat in
  noted (rest / bs) ++ (if (rest mod bs =? 0)%nat then [] else [1%nat]).
Definition asked (bs : nat) (p : N) (o : op) (r : ret) : list nat * N :=
  match o, r with
  | Apply d, Bytes _ | ApplyB2b d _, Bytes _ => (asked_bytes bs p (length d), p + N.of_nat (length d))
  | Write n, Bytes _ => (asked_bytes bs p n, p + N.of_nat n)
  | Seek q, Done => (if q mod N.of_nat bs =? 0 then [] else [1%nat], q)
  | _, _ => ([], p)
  end.
Fixpoint asked_all (bs : nat) (p : N) (h : list op) (rs : list ret) : list nat :=
  match h, rs with
  | o :: h', r :: rs' => fst (asked bs p o r) ++ asked_all bs (snd (asked bs p o r)) h' rs'
  | _, _ => []
  end.
(** Bytes in a block of the cipher's keystream. *)
Definition block_bytes (c : cipher) : nat :=
  match c with CRabbit _ _ | CRabbitKeyOnly _ => 16 | CHc256 _ _ => 4 | _ => 64 end.
Definition blocked (c : cipher) : Prop := match c with CRc4 _ => False | _ => True end.

(** ** Any core *)
Section Log.
  Context {S : Type} (C : score S) (Inv : S -> Prop).
  Let bs := sc_bs C.
  Hypothesis Hbs : (0 < bs)%nat.
  Hypothesis Hgen : forall st k b st', Inv st -> sc_gen C k st = Ok (b, st') -> length b = (bs * k)%nat /\ Inv st'.

  Definition lw (l : list nat) (w : wrapper S) : wrapper (list nat * S) := Build_wrapper (l, w_core w) (w_buf w) (w_cur w).
  Definition Ready (w : wrapper S) (p : N) : Prop :=
    (1 <= w_cur w)%nat /\ (w_cur w <= bs)%nat /\ (bs - w_cur w)%nat = left_over bs p /\ length (w_buf w) = bs /\ Inv (w_core w).

  Lemma left_over_spec p : (left_over bs p < bs)%nat /\ (p + N.of_nat (left_over bs p)) mod N.of_nat bs = 0.
  Proof.
    unfold left_over. pose proof (N.mod_lt p (N.of_nat bs) ltac:(lia)) as U.
    pose proof (N.mod_lt (N.of_nat bs - p mod N.of_nat bs) (N.of_nat bs) ltac:(lia)) as V. split; [lia|].
    rewrite N2Nat.id. rewrite N.add_mod_idemp_r by lia.
    rewrite <- N.add_mod_idemp_l by lia. replace (p mod N.of_nat bs + (N.of_nat bs - p mod N.of_nat bs)) with (N.of_nat bs) by lia.
    apply N.mod_same. lia.
  Qed.
  Lemma left_over_unique p a : (a < bs)%nat -> (p + N.of_nat a) mod N.of_nat bs = 0 -> left_over bs p = a.
  Proof.
    intros Ha Hm. destruct (left_over_spec p) as [Hb Hn]. revert Hb Hn. generalize (left_over bs p). intros b Hb Hn.
    apply N.mod_divide in Hm, Hn; try lia. destruct Hm as [x Hx], Hn as [y Hy].
    set (B := N.of_nat bs) in *. assert (N.of_nat a < B /\ N.of_nat b < B) by (unfold B; lia). clearbody B.
    assert (x = y) by nia. subst. lia.
  Qed.

  Lemma write_block_log l st buf cur t p : Inv st -> (t < bs)%nat -> (1 <= cur)%nat -> (cur <= bs)%nat -> length buf = bs ->
    (t = 0%nat -> (bs - cur)%nat = left_over bs p) -> (t <> 0%nat -> (p + N.of_nat (bs - t)) mod N.of_nat bs = 0) ->
    write_block (logged C) (l, st) buf cur t
    = (do (b, w') <- write_block C st buf cur t; Ok (b, lw (l ++ (if (t =? 0)%nat then [] else [1%nat])) w'))
    /\ (forall b w', write_block C st buf cur t = Ok (b, w') -> length b = t /\ Ready w' p).
  Proof.
    intros HI Ht H1 H2 Hlb H0 Hp. unfold write_block. destruct (Nat.eqb_spec t 0) as [E|E].
    - cbn [bind]. split; [rewrite app_nil_r; reflexivity|]. intros b w' Eq. injection Eq as <- <-. split; [cbn; lia|].
      unfold Ready. cbn [w_cur w_buf w_core]. repeat split; auto.
    - cbn [sc_bs logged]. fold bs. assert (Hlt : (t <? bs)%nat = true) by (apply Nat.ltb_lt; exact Ht). rewrite Hlt.
      cbn [assert_ bind]. cbn [sc_gen logged snd fst]. destruct (sc_gen C 1 st) as [[b st']|] eqn:Eg; cbn [bind]; [|split; [reflexivity|discriminate]].
      destruct (Hgen _ _ _ _ HI Eg) as [Hl HI']. split; [reflexivity|].
      intros b' w' Eq. injection Eq as <- <-. rewrite firstn_length. split; [lia|].
      unfold Ready. cbn [w_cur w_buf w_core]. repeat split; try lia; try exact HI'. symmetry. apply left_over_unique; [lia|exact (Hp E)].
  Qed.

  Lemma unchecked_log l w p n : Ready w p ->
    unchecked_write (logged C) (lw l w) n
    = (do (b, w') <- unchecked_write C w n; Ok (b, lw (l ++ asked_bytes bs p n) w'))
    /\ (forall b w', unchecked_write C w n = Ok (b, w') -> Ready w' (p + N.of_nat n)).
  Proof.
    intros (H1 & H2 & H3 & Hlb & HI). unfold unchecked_write, read_cached, buf_rem. cbn [sc_bs logged lw w_cur w_buf w_core]. fold bs.
    set (m := Nat.min (bs - w_cur w) n) in *.
    assert (Hh : length (slice (w_buf w) (w_cur w) m) = m).
    { unfold slice. rewrite firstn_length, skipn_length. lia. }
    set (head := slice (w_buf w) (w_cur w) m) in *. rewrite Hh.
    assert (Er : (n - left_over bs p = n - m)%nat) by lia.
    unfold asked_bytes. rewrite Er. set (rest := (n - m)%nat) in *.
    cbn [sc_gen logged snd fst]. destruct (sc_gen C (rest / bs) (w_core w)) as [[body st]|] eqn:Eg; cbn [bind]; [|split; [reflexivity|discriminate]].
    destruct (Hgen _ _ _ _ HI Eg) as [Hl HI'].
    pose proof (Nat.div_mod rest bs ltac:(lia)) as Ed. pose proof (Nat.mod_upper_bound rest bs ltac:(lia)) as Eu.
    destruct (left_over_spec p) as [Hlo Hmod]. rewrite <- H3 in Hlo, Hmod.
    assert (Q : ((rest mod bs = 0)%nat -> (bs - (w_cur w + m))%nat = left_over bs (p + N.of_nat n))
                /\ ((rest mod bs <> 0)%nat -> (p + N.of_nat n + N.of_nat (bs - rest mod bs)) mod N.of_nat bs = 0)).
    { set (q := (rest / bs)%nat) in *. set (t := (rest mod bs)%nat) in *. clearbody q t.
      apply N.mod_divide in Hmod; [|lia]. destruct Hmod as [x Hx].
      assert (Em : rest = 0%nat /\ m = n \/ m = (bs - w_cur w)%nat /\ (m + rest = n)%nat) by lia. clearbody m rest.
      split; intros Ht.
      - symmetry. apply left_over_unique; [lia|]. apply N.mod_divide; [lia|].
        destruct Em as [[E1 E2]|[E1 E2]].
        + exists x. lia.
        + exists (x + N.of_nat q). subst t. rewrite Nat.add_0_r in Ed. rewrite N.mul_add_distr_r, <- Hx. nia.
      - apply N.mod_divide; [lia|]. destruct Em as [[E1 E2]|[E1 E2]]; [nia|].
        exists (x + N.of_nat q + 1). rewrite !N.mul_add_distr_r, <- Hx. nia. }
    destruct Q as [Q0 Q1].
    destruct (write_block_log (l ++ noted (rest / bs)) st (w_buf w) (w_cur w + m) (rest mod bs) (p + N.of_nat n))
      as [E1 E2]; try assumption; try lia.
    cbn [fst]. rewrite E1. split.
    - destruct (write_block C st (w_buf w) (w_cur w + m) (rest mod bs)) as [[b w']|]; cbn [bind]; [|reflexivity].
      rewrite (app_assoc l). reflexivity.
    - intros b w' E. destruct (write_block C st (w_buf w) (w_cur w + m) (rest mod bs)) as [[b' w'']|] eqn:Ew; cbn [bind] in E; [|discriminate].
      injection E as <- <-. apply (E2 b' w''). reflexivity.
  Qed.

  Context (K : option (sseek S)).
  Hypothesis Hset : forall K0 st b, K = Some K0 -> Inv st -> b < sk_mod K0 -> Inv (sk_set K0 st b).

  Lemma step_log l w p o : Ready w p ->
    step (logged C) (option_map logged_seek K) (lw l w) o
    = (do (r, w') <- step C K w o; Ok (r, lw (l ++ fst (asked bs p o r)) w'))
    /\ (forall r w', step C K w o = Ok (r, w') -> Ready w' (snd (asked bs p o r))).
  Proof.
    intros HR.
    assert (Hc : forall n, check_remaining (logged C) (lw l w) n = check_remaining C w n) by reflexivity.
    assert (Hid : lw (l ++ []) w = lw l w) by (rewrite app_nil_r; reflexivity).
    assert (Ha : forall d,
      try_apply (logged C) (lw l w) d
      = (do r <- try_apply C w d; Ok (match r with Some (b, w') => Some (b, lw (l ++ asked_bytes bs p (length d)) w') | None => None end))
      /\ (forall b w', try_apply C w d = Ok (Some (b, w')) -> Ready w' (p + N.of_nat (length d)))).
    { intros d. unfold try_apply, unchecked_apply. rewrite Hc. destruct (check_remaining C w (length d)); [|split; [reflexivity|discriminate]].
      destruct (unchecked_log l w p (length d) HR) as [E1 E2]. rewrite E1.
      destruct (unchecked_write C w (length d)) as [[b w']|]; cbn [bind]; [|split; [reflexivity|discriminate]].
      split; [reflexivity|]. intros b' w'' E. injection E as <- <-. apply (E2 b w'). reflexivity. }
    destruct o as [d|d m|n|q|t]; cbn [step].
    - destruct (Ha d) as [E1 E2]. rewrite E1. destruct (try_apply C w d) as [[[b w']|]|]; cbn [bind asked fst snd].
      + split; [reflexivity|]. intros r w'' E. injection E as <- <-. cbn [snd]. apply (E2 b w'). reflexivity.
      + rewrite Hid. split; [reflexivity|]. intros r w'' E. injection E as <- <-. exact HR.
      + split; [reflexivity|discriminate].
    - unfold apply_b2b. destruct (length d =? m)%nat; cbn [bind asked fst snd].
      + destruct (Ha d) as [E1 E2]. rewrite E1. destruct (try_apply C w d) as [[[b w']|]|]; cbn [bind asked fst snd].
        * split; [reflexivity|]. intros r w'' E. injection E as <- <-. cbn [snd]. apply (E2 b w'). reflexivity.
        * rewrite Hid. split; [reflexivity|]. intros r w'' E. injection E as <- <-. exact HR.
        * split; [reflexivity|discriminate].
      + rewrite Hid. split; [reflexivity|]. intros r w'' E. injection E as <- <-. exact HR.
    - unfold try_write. rewrite Hc. destruct (check_remaining C w n); cbn [bind asked fst snd].
      + destruct (unchecked_log l w p n HR) as [E1 E2]. rewrite E1.
        destruct (unchecked_write C w n) as [[b w']|]; cbn [bind asked fst snd]; [|split; [reflexivity|discriminate]].
        split; [reflexivity|]. intros r w'' E. injection E as <- <-. cbn [snd]. apply (E2 b w'). reflexivity.
      + rewrite Hid. split; [reflexivity|]. intros r w'' E. injection E as <- <-. exact HR.
    - clear Ha. destruct K as [K0|] eqn:EK; cbn [option_map bind asked fst snd].
      + unfold try_seek. cbn [sk_mod sk_set logged_seek lw w_core fst snd sc_bs logged w_buf]. fold bs.
        destruct (N.ltb_spec (q / N.of_nat bs) (sk_mod K0)) as [Hlt|Hge]; cbn [bind asked fst snd].
        2:{ rewrite Hid. split; [reflexivity|]. intros r w'' E. injection E as <- <-. exact HR. }
        destruct HR as (H1 & H2 & H3 & Hlb & HI).
        pose proof (N.div_mod q (N.of_nat bs) ltac:(lia)) as Ed. pose proof (N.mod_lt q (N.of_nat bs) ltac:(lia)) as Eu.
        destruct (write_block_log l (sk_set K0 (w_core w) (q / N.of_nat bs)) (w_buf w) bs (N.to_nat (q mod N.of_nat bs)) q) as [E1 E2];
          try assumption; try lia.
        * apply Hset; [reflexivity|assumption|assumption].
        * intros Ht. rewrite Nat.sub_diag. symmetry. apply left_over_unique; [lia|]. rewrite N.add_0_r. lia.
        * intros Ht. apply N.mod_divide; [lia|]. exists (q / N.of_nat bs + 1). rewrite N.mul_add_distr_r. lia.
        * rewrite E1.
          destruct (write_block C (sk_set K0 (w_core w) (q / N.of_nat bs)) (w_buf w) bs (N.to_nat (q mod N.of_nat bs))) as [[b w']|] eqn:Ew;
            cbn [bind asked fst snd]; [|split; [reflexivity|discriminate]].
          split.
          -- do 4 f_equal. destruct (N.eqb_spec (q mod N.of_nat bs) 0) as [Z|Z]; destruct (Nat.eqb_spec (N.to_nat (q mod N.of_nat bs)) 0); try lia; reflexivity.
          -- intros r w'' E. injection E as <- <-. cbn [snd]. apply (E2 b w'). reflexivity.
      + rewrite Hid. split; [reflexivity|]. intros r w'' E. injection E as <- <-. exact HR.
    - destruct K as [K0|]; cbn [option_map bind asked fst snd].
      + change (try_current_pos (logged C) (logged_seek K0) (lw l w) t) with (try_current_pos C K0 w t).
        destruct (try_current_pos C K0 w t); cbn [bind asked fst snd]; rewrite Hid; (split; [reflexivity|]);
          intros r w'' E; injection E as <- <-; exact HR.
      + rewrite Hid. split; [reflexivity|]. intros r w'' E. injection E as <- <-. exact HR.
  Qed.

  Lemma run_log h : forall l w p, Ready w p ->
    run (logged C) (option_map logged_seek K) (lw l w) h
    = (do (rs, w') <- run C K w h; Ok (rs, lw (l ++ asked_all bs p h rs) w')).
  Proof.
    induction h as [|o h IH]; intros l w p HR; cbn [run].
    - cbn [bind asked_all]. rewrite app_nil_r. reflexivity.
    - destruct (step_log l w p o HR) as [E1 E2]. rewrite E1. destruct (step C K w o) as [[r w1]|]; cbn [bind]; [|reflexivity].
      rewrite (IH _ _ _ (E2 r w1 eq_refl)). destruct (run C K w1 h) as [[rs w2]|]; cbn [bind asked_all]; [|reflexivity].
      rewrite app_assoc. reflexivity.
  Qed.
  Lemma core_log st h : Inv st ->
    work_core C K (Ok st) h = (do rs <- run_core C K (Ok st) h; Ok (rs, asked_all bs 0 h rs)).
  Proof.
    intros HI. unfold work_core, run_core. cbn [bind].
    change (w_new (logged C) ([], st)) with (lw [] (w_new C st)).
    rewrite (run_log h [] (w_new C st) 0).
    - destruct (run C K (w_new C st) h) as [[rs w]|]; reflexivity.
    - unfold Ready, w_new. cbn [w_cur w_buf w_core]. fold bs. rewrite repeat_length, Nat.sub_diag.
      repeat split; try lia; try exact HI. symmetry. apply left_over_unique; [lia|]. apply N.mod_0_l. lia.
  Qed.
End Log.

(** ** The cores of the repository *)
Lemma chacha_log e v n key iv c h : length key = 32%nat -> length iv = nonce_len v -> bytes key -> bytes iv ->
  work_core (chacha_score e v n) (Some (chacha_seek v)) (Ok (mk_state v key iv c)) h
  = (do rs <- run_core (chacha_score e v n) (Some (chacha_seek v)) (Ok (mk_state v key iv c)) h; Ok (rs, asked_all 64 0 h rs)).
Proof.
  intros Hk Hi Bk Bi.
  apply (core_log (chacha_score e v n) (fun st => exists c, st = mk_state v key iv c) ltac:(cbn; lia)).
  - intros st k b st' [c' ->] E. cbn [sc_gen sc_bs chacha_score] in *. rewrite core_write_ok in E by (apply mk_state_wf; assumption).
    assert (Eb : blocks_from v n k (mk_state v key iv c') = b) by congruence.
    assert (Es : adv v (N.of_nat k) (mk_state v key iv c') = st') by congruence. subst b st'. split.
    + apply blocks_from_length. apply mk_state_wf; assumption.
    + eexists. apply adv_mk_state. exact Hk.
  - intros K0 st b E [c' ->] Hb. assert (K0 = chacha_seek v) by congruence. subst K0. cbn [sk_set chacha_seek sk_mod] in *.
    exists b. apply set_pos_mk; assumption.
  - exists c. reflexivity.
Qed.
Lemma salsa_log e n key iv c h : length key = 32%nat -> length iv = 8%nat -> bytes key -> bytes iv ->
  work_core (salsa_score e n) (Some salsa_seek) (Ok (s_state key iv c)) h
  = (do rs <- run_core (salsa_score e n) (Some salsa_seek) (Ok (s_state key iv c)) h; Ok (rs, asked_all 64 0 h rs)).
Proof.
  intros Hk Hi Bk Bi.
  apply (core_log (salsa_score e n) (fun st => exists c, st = s_state key iv c) ltac:(cbn; lia)).
  - intros st k b st' [c' ->] E. cbn [sc_gen sc_bs salsa_score] in *.
    assert (Hs : e_ck e = true -> s_ctr (s_state key iv c') + N.of_nat k < M64).
    { intros Ck. destruct (N.lt_ge_cases (s_ctr (s_state key iv c') + N.of_nat k) M64) as [L|G]; [exact L|].
      rewrite Ck, salsa_write_panic in E; [discriminate|apply s_state_wf; assumption|exact G]. }
    rewrite salsa_write_ok in E by (try exact Hs; apply s_state_wf; assumption).
    assert (Eb : s_blocks n k (s_state key iv c') = b) by congruence.
    assert (Es : s_adv (N.of_nat k) (s_state key iv c') = st') by congruence. subst b st'. split.
    + rewrite s_blocks_spec by assumption. apply (flat_map_len 64 (fun i => ss_block n key iv (c' + N.of_nat i))).
      intros i. apply ss_block_length; assumption.
    + eexists. apply s_adv_state; assumption.
  - intros K0 st b E [c' ->] Hb. assert (K0 = salsa_seek) by congruence. subst K0. cbn [sk_set salsa_seek sk_mod] in *.
    exists b. apply s_set_state; assumption.
  - exists c. reflexivity.
Qed.
Lemma rabbit_log e s h : rwf s ->
  work_core (rabbit_score e) None (Ok s) h = (do rs <- run_core (rabbit_score e) None (Ok s) h; Ok (rs, asked_all 16 0 h rs)).
Proof.
  intros H. apply (core_log (rabbit_score e) rwf ltac:(cbn; lia)); [|discriminate|exact H].
  intros st k b st' Hst E. cbn [sc_gen sc_bs rabbit_score] in *.
  destruct (rabbit_write_ok (e_ck e) k st Hst) as (s' & E' & Hs' & _). rewrite E' in E.
  assert (Eb : flat_map (fun i => rb_octets 16 (rb_block (to_spec st) i)) (seq 0 k) = b) by congruence.
  assert (Es : s' = st') by congruence. subst b st'. split; [|exact Hs'].
  apply (flat_map_len 16 (fun i => rb_octets 16 (rb_block (to_spec st) i))). intros i. rewrite rb_octets_le. apply to_le_length.
Qed.
Lemma hc_log e t s h : env_ok e -> hrel s (hc_run t 0) 0 ->
  work_core (hc_score e) None (Ok s) h = (do rs <- run_core (hc_score e) None (Ok s) h; Ok (rs, asked_all 4 0 h rs)).
Proof.
  intros He H.
  assert (Hu : usize_ok (2 ^ e_usz e)).
  { unfold usize_ok. destruct He as [-> | [-> | ->]]; [left | right; left | right; right]; reflexivity. }
  apply (core_log (hc_score e) (fun s => exists n, hrel s (hc_run t n) (N.of_nat n)) ltac:(cbn; lia)); [|discriminate|exists 0%nat; exact H].
  intros st k b st' [m Hst] E. cbn [sc_gen sc_bs hc_score] in *.
  destruct (hc_write_ok (e_ck e) (2 ^ e_usz e) k t Hu m st Hst) as (s' & E' & Hs'). rewrite E' in E.
  assert (Eb : flat_map (fun i => to_le 4 (fst (hc_step (N.of_nat i) (hc_run t i)))) (seq m k) = b) by congruence.
  assert (Es : s' = st') by congruence. subst b st'. split; [|exists (m + k)%nat; exact Hs'].
  apply (flat_map_len 4 (fun i => to_le 4 (fst (hc_step (N.of_nat i) (hc_run t i))))). intros i. apply to_le_length.
Qed.

(** ** The theorem *)
(** The core of every cipher is asked, whatever the calls, for exactly the blocks that follow
    from positions and answers; also with overflow checks, on any backend, for calls of any
    length.  A refused call, a query of the position, a seek to a block's start ask nothing. *)
Theorem C91_log e c h : env_ok e -> cipher_ok c -> blocked c ->
  cipher_work e c h = (do rs <- cipher_run e c h; Ok (rs, asked_all (block_bytes c) 0 h rs)).
Proof.
  intros He Hc Hb.
  destruct c as [v n key iv | n key iv | n key iv | n key iv | key iv | key | key iv | key]; cbn [cipher_work cipher_run cipher_ok block_bytes] in *.
  - assert (Hc' : octets 32 key /\ octets (nonce_len v) iv) by (destruct v; exact Hc).
    destruct Hc' as [[Hk Bk] [Hi Bi]]. rewrite new_internal_ok by assumption. apply chacha_log; assumption.
  - destruct Hc as [[Hk Bk] [Hi Bi]]. rewrite xchacha_new_ok by assumption.
    assert (H16 : length (firstn 16 iv) = 16%nat) by (rewrite firstn_length, Hi; reflexivity).
    apply (chacha_log e Ietf n).
    + apply hchacha_length; auto using bytes_firstn.
    + unfold xnonce. rewrite app_length, repeat_length, skipn_length, Hi. reflexivity.
    + apply hchacha_bytes; assumption.
    + unfold xnonce. apply Forall_app. split; [repeat constructor | apply bytes_skipn; exact Bi].
  - destruct Hc as [[Hk Bk] [Hi Bi]]. rewrite salsa_new_eq by assumption. apply salsa_log; assumption.
  - destruct Hc as [[Hk Bk] [Hi Bi]]. rewrite xsalsa_new_eq by assumption.
    assert (H16 : length (firstn 16 iv) = 16%nat) by (rewrite firstn_length, Hi; reflexivity).
    apply salsa_log.
    + apply hsalsa_length; assumption.
    + rewrite skipn_length, Hi. reflexivity.
    + apply hsalsa_bytes; assumption.
    + apply bytes_skipn. exact Bi.
  - destruct Hc as [[Hk Bk] [Hi Bi]]. destruct (setup_key_ok (e_ck e) key Hk Bk) as (s0 & E0 & Hwf0 & Es0).
    destruct (setup_iv_ok (e_ck e) iv s0 Hi Bi Hwf0) as (s & E & Hwf & Es).
    unfold rabbit_new, rabbit_key_only. rewrite E0. cbn [bind]. rewrite E. apply rabbit_log; exact Hwf.
  - destruct Hc as [Hk Bk]. destruct (setup_key_ok (e_ck e) key Hk Bk) as (s & E & Hwf & Es).
    unfold rabbit_key_only. rewrite E. apply rabbit_log; exact Hwf.
  - destruct Hc as [[Hk Bk] [Hi Bi]].
    assert (Hu : usize_ok (2 ^ e_usz e)).
    { unfold usize_ok. destruct He as [-> | [-> | ->]]; [left | right; left | right; right]; reflexivity. }
    destruct (hc_new_ok key iv Hk Bk Hi Bi (e_ck e) _ Hu) as (s & E & H). rewrite E. apply (hc_log e _ s h He H).
  - destruct Hb.
Qed.
Print Assumptions C91_log.

(** ** Nothing is computed twice *)
Definition served (o : op) (r : ret) : nat :=
  match o, r with
  | Apply d, Bytes _ | ApplyB2b d _, Bytes _ => length d
  | Write n, Bytes _ => n
  | _, _ => 0
  end.
(** What a seek from [p] makes useless: the rest of the block left, the beginning of the
    block entered. *)
Definition thrown (bs : nat) (p : N) (o : op) (r : ret) : nat :=
  match o, r with Seek q, Done => left_over bs p + N.to_nat (q mod N.of_nat bs) | _, _ => 0 end%nat.
Fixpoint served_all (h : list op) (rs : list ret) : nat :=
  match h, rs with o :: h', r :: rs' => served o r + served_all h' rs' | _, _ => 0 end%nat.
Fixpoint thrown_all (bs : nat) (p : N) (h : list op) (rs : list ret) : nat :=
  match h, rs with o :: h', r :: rs' => thrown bs p o r + thrown_all bs (snd (asked bs p o r)) h' rs' | _, _ => 0 end%nat.
Fixpoint last_pos (bs : nat) (p : N) (h : list op) (rs : list ret) : N :=
  match h, rs with o :: h', r :: rs' => last_pos bs (snd (asked bs p o r)) h' rs' | _, _ => p end.
Fixpoint seeks (h : list op) (rs : list ret) : nat :=
  match h, rs with o :: h', r :: rs' => (match o, r with Seek _, Done => 1 | _, _ => 0 end) + seeks h' rs' | _, _ => 0 end%nat.

Lemma sum_app a b : sum (a ++ b) = (sum a + sum b)%nat.
Proof. unfold sum. induction a as [|x a IH]; cbn; [reflexivity|]. rewrite IH. lia. Qed.
Lemma sum_noted k : sum (noted k) = k.
Proof. destruct k; cbn; lia. Qed.

Lemma lo_spec bs p : (0 < bs)%nat -> (left_over bs p < bs)%nat /\ (p + N.of_nat (left_over bs p)) mod N.of_nat bs = 0.
Proof.
  intros Hbs. unfold left_over. pose proof (N.mod_lt p (N.of_nat bs) ltac:(lia)) as U.
  pose proof (N.mod_lt (N.of_nat bs - p mod N.of_nat bs) (N.of_nat bs) ltac:(lia)) as V. split; [lia|].
  rewrite N2Nat.id. rewrite N.add_mod_idemp_r by lia.
  rewrite <- N.add_mod_idemp_l by lia. replace (p mod N.of_nat bs + (N.of_nat bs - p mod N.of_nat bs)) with (N.of_nat bs) by lia.
  apply N.mod_same. lia.
Qed.
Lemma asked_bytes_sum bs p n : (0 < bs)%nat ->
  (bs * sum (asked_bytes bs p n) + left_over bs p = n + left_over bs (p + N.of_nat n))%nat.
Proof.
  intros Hbs. unfold asked_bytes. set (rest := (n - left_over bs p)%nat).
  assert (Es : (if (rest mod bs =? 0)%nat then [] else [1%nat]) = noted (if (rest mod bs =? 0)%nat then 0 else 1)) by (destruct (rest mod bs =? 0)%nat; reflexivity).
  rewrite Es, sum_app, !sum_noted. clear Es.
  pose proof (lo_spec bs p Hbs) as [La Ma]. pose proof (lo_spec bs (p + N.of_nat n) Hbs) as [Lb Mb].
  pose proof (Nat.div_mod rest bs ltac:(lia)) as Ed. pose proof (Nat.mod_upper_bound rest bs ltac:(lia)) as Eu.
  set (q := (rest / bs)%nat) in *. set (t := (rest mod bs)%nat) in *. clearbody q t.
  set (a := left_over bs p) in *. set (b := left_over bs (p + N.of_nat n)) in *. clearbody a b.
  apply N.mod_divide in Ma, Mb; try lia. destruct Ma as [x Hx], Mb as [y Hy].
  destruct (Nat.eqb_spec t 0) as [Z|Z]; destruct (Nat.le_gt_cases n a) as [G|G]; subst rest.
  - assert (q = 0)%nat by nia. assert (x = y) by nia. nia.
  - assert (y = x + N.of_nat q) by nia. nia.
  - nia.
  - assert (y = x + N.of_nat q + 1) by nia. nia.
Qed.
Lemma asked_sum bs p o r : (0 < bs)%nat ->
  (bs * sum (fst (asked bs p o r)) + left_over bs p = served o r + thrown bs p o r + left_over bs (snd (asked bs p o r)))%nat.
Proof.
  intros Hbs.
  destruct o as [d|d m|n|q|t]; destruct r; cbn [asked served thrown fst snd];
    try (rewrite asked_bytes_sum by exact Hbs; lia); try (change (sum []) with 0%nat; lia).
  pose proof (lo_spec bs q Hbs) as [La Ma]. pose proof (N.mod_lt q (N.of_nat bs) ltac:(lia)) as U.
  pose proof (N.div_mod q (N.of_nat bs) ltac:(lia)) as D.
  set (a := left_over bs q) in *. clearbody a. set (b := left_over bs p). clearbody b.
  apply N.mod_divide in Ma; [|lia]. destruct Ma as [x Hx].
  destruct (N.eqb_spec (q mod N.of_nat bs) 0) as [Z|Z].
  - change (sum []) with 0%nat. assert (x = q / N.of_nat bs) by nia. nia.
  - change (sum [1%nat]) with 1%nat. assert (x = q / N.of_nat bs + 1) by nia. nia.
Qed.
Lemma asked_all_sum bs : (0 < bs)%nat -> forall h rs p,
  (bs * sum (asked_all bs p h rs) + left_over bs p
   = served_all h rs + thrown_all bs p h rs + left_over bs (last_pos bs p h rs))%nat.
Proof.
  intros Hbs. induction h as [|o h IH]; intros [|r rs] p; cbn [asked_all served_all thrown_all last_pos]; try (change (sum []) with 0%nat; lia).
  rewrite sum_app. pose proof (asked_sum bs p o r Hbs). pose proof (IH rs (snd (asked bs p o r))). nia.
Qed.
Lemma lo_0 bs : (0 < bs)%nat -> left_over bs 0 = 0%nat.
Proof. intros H. unfold left_over. rewrite N.mod_0_l by lia. rewrite N.sub_0_r, N.mod_same by lia. reflexivity. Qed.
Lemma block_bytes_pos c : (0 < block_bytes c)%nat.
Proof. destruct c; cbn; lia. Qed.
Lemma work_inv e c h rs log : env_ok e -> cipher_ok c -> blocked c -> cipher_work e c h = Ok (rs, log) ->
  cipher_run e c h = Ok rs /\ log = asked_all (block_bytes c) 0 h rs.
Proof.
  intros He Hc Hb E. rewrite (C91_log e c h He Hc Hb) in E. destruct (cipher_run e c h) as [rs'|]; cbn [bind] in E; [|discriminate].
  split; congruence.
Qed.

(** Every byte computed has been handed out, or is still in the buffer, or was thrown away
    by a seek. *)
Theorem C91_conserved e c h rs log : env_ok e -> cipher_ok c -> blocked c -> cipher_work e c h = Ok (rs, log) ->
  (block_bytes c * sum log = served_all h rs + thrown_all (block_bytes c) 0 h rs + left_over (block_bytes c) (last_pos (block_bytes c) 0 h rs))%nat.
Proof.
  intros He Hc Hb E. destruct (work_inv e c h rs log He Hc Hb E) as [_ ->].
  pose proof (asked_all_sum (block_bytes c) (block_bytes_pos c) h rs 0) as A. rewrite lo_0 in A by apply block_bytes_pos. lia.
Qed.
Print Assumptions C91_conserved.

Lemma thrown_bound bs : (0 < bs)%nat -> forall h rs p, (thrown_all bs p h rs <= 2 * (bs - 1) * seeks h rs)%nat.
Proof.
  intros Hbs. induction h as [|o h IH]; intros [|r rs] p; cbn [thrown_all seeks]; try lia.
  specialize (IH rs (snd (asked bs p o r))).
  assert (thrown bs p o r <= 2 * (bs - 1) * (match o, r with Seek _, Done => 1 | _, _ => 0 end))%nat; [|nia].
  destruct o as [d|d m|n|q|t]; destruct r; cbn [thrown]; try lia.
  pose proof (lo_spec bs p Hbs). pose proof (N.mod_lt q (N.of_nat bs) ltac:(lia)). lia.
Qed.
(** So no history makes a cipher compute much more than it hands out: a block at the end and
    two at each seek, at most. *)
Theorem C91_bound e c h rs log : env_ok e -> cipher_ok c -> blocked c -> cipher_work e c h = Ok (rs, log) ->
  (block_bytes c * sum log <= served_all h rs + (2 * seeks h rs + 1) * (block_bytes c - 1))%nat.
Proof.
  intros He Hc Hb E. rewrite (C91_conserved e c h rs log He Hc Hb E).
  pose proof (thrown_bound (block_bytes c) (block_bytes_pos c) h rs 0) as T.
  pose proof (lo_spec (block_bytes c) (last_pos (block_bytes c) 0 h rs) (block_bytes_pos c)) as [L _].
  set (x := thrown_all _ _ _ _) in *. set (y := left_over _ _) in *. set (b := block_bytes c) in *. clearbody x y b. nia.
Qed.
Print Assumptions C91_bound.

(** A message costs the same blocks however it is cut, as few as its length allows. *)
Theorem C91_chunks e c ds rs log : env_ok e -> cipher_ok c -> blocked c ->
  cipher_work e c (map Apply ds) = Ok (rs, log) -> served_all (map Apply ds) rs = length (concat ds) ->
  sum log = ((length (concat ds) + block_bytes c - 1) / block_bytes c)%nat.
Proof.
  intros He Hc Hb E NE. pose proof (C91_conserved e c _ _ _ He Hc Hb E) as A. rewrite NE in A.
  assert (T : forall bs ds rs p, thrown_all bs p (map Apply ds) rs = 0%nat).
  { clear. intros bs. induction ds as [|d ds IH]; intros [|r rs] p; cbn [map thrown_all]; try reflexivity. rewrite IH. destruct r; reflexivity. }
  rewrite T in A. pose proof (lo_spec (block_bytes c) (last_pos (block_bytes c) 0 (map Apply ds) rs) (block_bytes_pos c)) as [L _].
  set (y := left_over _ _) in *. set (b := block_bytes c) in *. clearbody y b. set (n := length (concat ds)) in *. clearbody n.
  apply (Nat.div_unique _ _ _ (b - 1 - y)); nia.
Qed.
Print Assumptions C91_chunks.

(** ** What the backends compute for it *)
(** [backend_of] and [par_of] are those of [process_with_backend]. *)
Theorem C91_backend c p v n f st :
  process_with_backend c p v n f st =
  let b := backend_of c p in
  match b with
  | BSoft => soft_inner v n (f (par_of b)) st
  | BSse2 => sse2_inner v n (f (par_of b)) st
  | BAvx2 => avx2_inner v n (f (par_of b)) st
  | BNeon => neon_inner v n (f (par_of b)) st
  | BAvx512 => avx512_inner v n (f (par_of b)) st
  end.
Proof.
  unfold process_with_backend, backend_of. destruct (c_backend c), (c_target c), (c_avx512 c), (has_avx512 p), (has_avx2 p), (has_sse2 p); reflexivity.
Qed.
Print Assumptions C91_backend.

Lemma sum_repeat x k : sum (repeat x k) = (k * x)%nat.
Proof. unfold sum. induction k as [|k IH]; cbn; [reflexivity|]. rewrite IH. reflexivity. Qed.
Lemma map_rep {A B} (f : A -> B) x k : map f (repeat x k) = repeat (f x) k.
Proof. induction k as [|k IH]; cbn; [reflexivity|]. rewrite IH. reflexivity. Qed.
Lemma lanes_eq b k : lanes b k = if (1 <? par_of b)%nat then (par_of b * (k / par_of b) + lanes_tail b (k mod par_of b))%nat else k.
Proof.
  unfold lanes, closure_reqs. destruct (1 <? par_of b)%nat eqn:E.
  - rewrite map_app, sum_app, map_rep, sum_repeat. unfold sum. cbn [map fold_right lanes_req]. lia.
  - rewrite map_rep, sum_repeat. destruct b; cbn in *; try discriminate; lia.
Qed.
(** A call for [k] blocks: the portable backend computes just these; SSE2 and AVX2 compute
    four for each of up to three left over; NEON eight for each of up to seven; AVX-512 the
    next of 1, 2, 4, 8, 16. *)
Theorem C91_lanes k :
  lanes BSoft k = k
  /\ lanes BSse2 k = (4 * (k / 4) + 4 * (k mod 4))%nat
  /\ lanes BAvx2 k = (4 * (k / 4) + 4 * (k mod 4))%nat
  /\ lanes BNeon k = (8 * (k / 8) + 8 * (k mod 8))%nat
  /\ lanes BAvx512 k = (16 * (k / 16) + nth (k mod 16) [0; 1; 2; 4; 4; 8; 8; 8; 8; 16; 16; 16; 16; 16; 16; 16] 0)%nat
  /\ (lanes BAvx512 k < k + 8)%nat
  /\ forall b, (k <= lanes b k <= par_of b * k)%nat.
Proof.
  assert (H512 : lanes BAvx512 k = (16 * (k / 16) + lanes_tail BAvx512 (k mod 16))%nat) by apply lanes_eq.
  assert (T : forall t, (t < 16)%nat -> (t <= lanes_tail BAvx512 t /\ lanes_tail BAvx512 t < t + 8 /\ lanes_tail BAvx512 t <= 16 * t)%nat).
  { intros t Ht. cbn [lanes_tail lanes_one].
    destruct (Nat.eqb_spec t 0); [lia|]. destruct (Nat.eqb_spec t 1); [lia|]. destruct (Nat.eqb_spec t 2); [lia|].
    destruct (Nat.leb_spec t 4); [lia|]. destruct (Nat.leb_spec t 8); lia. }
  pose proof (T (k mod 16)%nat ltac:(apply Nat.mod_upper_bound; lia)) as T'. pose proof (Nat.div_mod k 16 ltac:(lia)) as D.
  assert (E1 : lanes BSoft k = k) by apply lanes_eq.
  assert (E2 : lanes BSse2 k = (4 * (k / 4) + 4 * (k mod 4))%nat) by (rewrite lanes_eq; cbn [par_of lanes_tail lanes_one Nat.ltb Nat.leb]; lia).
  assert (E3 : lanes BAvx2 k = (4 * (k / 4) + 4 * (k mod 4))%nat) by (rewrite lanes_eq; cbn [par_of lanes_tail lanes_one Nat.ltb Nat.leb]; lia).
  assert (E4 : lanes BNeon k = (8 * (k / 8) + 8 * (k mod 8))%nat) by (rewrite lanes_eq; cbn [par_of lanes_tail lanes_one Nat.ltb Nat.leb]; lia).
  assert (E5 : lanes BAvx512 k = (16 * (k / 16) + nth (k mod 16) [0; 1; 2; 4; 4; 8; 8; 8; 8; 16; 16; 16; 16; 16; 16; 16] 0)%nat).
  { rewrite H512. f_equal. pose proof (Nat.mod_upper_bound k 16 ltac:(lia)) as U. set (t := (k mod 16)%nat) in *. clearbody t.
    do 16 (destruct t as [|t]; [reflexivity|]). lia. }
  repeat (split; [assumption || lia|]). intros b.
  pose proof (Nat.div_mod k 4 ltac:(lia)). pose proof (Nat.div_mod k 8 ltac:(lia)).
  destruct b; rewrite ?E1, ?E2, ?E3, ?E4, ?H512; cbn [par_of]; lia.
Qed.
Print Assumptions C91_lanes.
(** A whole history of a ChaCha cipher: at least the blocks asked for, at most [par_of] times
    as many. *)
Theorem C91_lanes_of e log : (sum log <= lanes_of e log <= par_of (backend_of (e_cfg e) (e_cpu e)) * sum log)%nat.
Proof.
  unfold lanes_of. set (b := backend_of _ _). clearbody b. unfold sum. induction log as [|k log IH]; cbn [map fold_right]; [lia|].
  destruct (C91_lanes k) as (_ & _ & _ & _ & _ & _ & H). specialize (H b). nia.
Qed.
Print Assumptions C91_lanes_of.

(** ** A case *)
Definition neon_env : env := {| e_cfg := {| c_target := Aarch64Neon; c_backend := NoCfg; c_avx512 := false |};
  e_cpu := {| has_avx512 := false; has_avx2 := false; has_sse2 := false |}; e_usz := 64; e_ck := false |}.
(** 15 blocks at once, 10 bytes, a seek into a block, 54 bytes, too much, a query: 15, 1, 1
    blocks asked for; on NEON 80 computed for these 17.  Cutting the 15 blocks into 8 and 7
    costs as much; into single blocks, 120. *)
Example C91_satisfiable :
  asked_all 64 0 [Write 960; Write 10; Seek 100; Write 28; Write 5000; CurPos 1000]
    [Bytes []; Bytes []; Done; Bytes []; Err; Pos 128] = [15; 1; 1]%nat
  /\ lanes_of neon_env [15; 1; 1]%nat = 80%nat
  /\ lanes_of neon_env [8; 7]%nat = 64%nat /\ lanes_of neon_env (repeat 1%nat 15) = 120%nat
  /\ lanes_of neon_env [16]%nat = 16%nat.
Proof. vm_compute. repeat split; reflexivity. Qed.
Definition wk_chacha : cipher := CChaCha Ietf 4 (repeat 3 32) (repeat 9 12).
Definition wk_calls : list op := [Write 130; Write 10; Seek 100; Write 28; CurPos 1000; Seek (64 * (2 ^ 32 - 2)); Write 65; Write 64].
Example C91_run : env_ok ex_env /\ cipher_ok wk_chacha /\ blocked wk_chacha
  /\ exists rs, cipher_work ex_env wk_chacha wk_calls = Ok (rs, [2; 1; 1; 1]%nat) /\ nth 6 rs Done = Err.
Proof.
  assert (He : env_ok ex_env) by apply all_ok. assert (Hc : cipher_ok wk_chacha) by (split; checks).
  split; [exact He|]. split; [exact Hc|]. split; [exact I|].
  rewrite (C91_log ex_env wk_chacha wk_calls He Hc I).
  rewrite eval_run_ok; [|exact He|vm_compute; reflexivity|vm_compute; reflexivity].
  eexists. split; [vm_compute; reflexivity|reflexivity].
Qed.
