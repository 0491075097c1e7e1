(** Final theorem C87: objects used again after a caught panic. *)
From Verif Require Import WordLemmas SpecStream SpecChaCha ChaChaCore ChaChaDispatch XChaCha ChaChaSoft ChaChaProofs ChaChaDispatchProofs
  CipherWrapper WrapperProofs SpecSalsa Salsa SalsaProofs SpecRabbit Rabbit RabbitProofs SpecHC256 Hc256 Hc256Proofs Rc4 SpecRC4 Rc4Proofs
  PropCommon Ciphers CiphersProofs BlockRng SpecRng ChaChaRng RngProofs Packed.
From Verif Require Import PropertiesStream PropertiesRng PropertiesRngExact Fast PropertiesPacked Unwind.
From Verif Require Lifecycle LifecycleProofs PropertiesSeekNum.
From Coq Require Import ZArith List Lia ZifyBool ZifyNat ZifyN.
Ltac Zify.zify_post_hook ::= Z.div_mod_to_equations.
Local Open Scope N_scope.
Local Open Scope list_scope.

(** The tape of [SpecStream] with caught panics: an unwrapped error leaves the position alone; a
    seek that panics (Salsa with overflow checks, into the last block) leaves the cipher at the
    start of the last block. *)
Definition caught_step (ks : N -> N) (lim : option limits) (strict : bool) (p : N) (x : bool * op) : got ret * N :=
  match step_spec ks lim strict p (snd x) with
  | Some (Err, p') => (if fst x then Caught else Ret Err, p')
  | Some (r, p') => (Ret r, p')
  | None => (Caught, match lim with Some l => l_usable l | None => p end)
  end.
Fixpoint caught_spec (ks : N -> N) (lim : option limits) (strict : bool) (p : N) (h : list (bool * op)) : list (got ret) :=
  match h with
  | [] => []
  | x :: h' => let (r, p') := caught_step ks lim strict p x in r :: caught_spec ks lim strict p' h'
  end.

(** Answers of a run without inner panics. *)
Fixpoint answers (h : list (bool * op)) (rs : list ret) : list (got ret) :=
  match h, rs with
  | (f, _) :: h', r :: rs' => seen f (Fine r) :: answers h' rs'
  | _, _ => []
  end.
Lemma seen_fine f r : seen f (Fine r) = match r with Err => if f then Caught else Ret Err | _ => Ret r end.
Proof. destruct f, r; reflexivity. Qed.
Lemma caught_answers ks lim strict h : forall p rs q, run_spec ks lim strict p (map snd h) = Some (rs, q) -> caught_spec ks lim strict p h = answers h rs.
Proof.
  induction h as [|[f o] h IH]; intros p rs q E; cbn [map run_spec caught_spec snd] in *; [injection E as <- _; reflexivity|].
  unfold caught_step. cbn [fst snd]. destruct (step_spec ks lim strict p o) as [[r p1]|]; [|discriminate E].
  destruct (run_spec ks lim strict p1 (map snd h)) as [[rs1 q1]|] eqn:E1; [|discriminate E]. injection E as <- _. cbn [answers].
  rewrite seen_fine, <- (IH _ _ _ E1). destruct r, f; reflexivity.
Qed.

Section Fine.
  Context {S : Type} (C : score S) (torn : S -> list N -> list N) (K : option (sseek S)).
  Lemma u_block_fine st buf n t p' : p_write_block C st buf n = Fine (t, p') -> u_write_block C torn st buf n = (Fine t, p').
  Proof.
    unfold p_write_block, u_write_block. destruct (n =? 0)%nat; [intros E; injection E as <- <-; reflexivity|].
    destruct (assert_ (n <? sc_bs C)%nat); [|discriminate]. cbn [res obind]. destruct (sc_gen C 1 st) as [[blk st']|]; [|discriminate].
    cbn [res obind]. intros E. injection E as <- <-. reflexivity.
  Qed.
  Lemma u_write_fine p n k p' : p_write C p n = Fine (k, p') -> u_write C torn p n = (Fine k, p').
  Proof.
    unfold p_write, u_write. destruct (p_read_cached C (snd p) n) as [[head buf]| |]; [|discriminate|discriminate]. cbn [obind]. cbv zeta.
    destruct (sc_gen C _ (fst p)) as [[body st]|]; [|discriminate]. cbn [res obind].
    destruct (p_write_block C st buf _) as [[t p1]| |] eqn:E; [|discriminate|discriminate]. cbn [obind]. intros X. injection X as <- <-.
    rewrite (u_block_fine _ _ _ _ _ E). reflexivity.
  Qed.
  Lemma u_step_fine p o r p' : p_step C K p o = Fine (r, p') -> u_step C torn K p o = (Fine r, p').
  Proof.
    assert (HA : forall d, (doo r <- p_try_apply C p d; match r with Some (b, p') => Fine (Bytes b, p') | None => Fine (Err, p) end) = Fine (r, p') ->
      u_guarded C torn p (length d) (xorb_list d) = (Fine r, p')).
    { intros d. unfold p_try_apply, u_guarded. destruct (p_check C p (length d)) as [[]| |]; try discriminate; cbn [obind].
      - destruct (p_write C p (length d)) as [[k p1]| |] eqn:E; try discriminate. cbn [obind]. rewrite (u_write_fine _ _ _ _ E).
        intros X. injection X as <- <-. reflexivity.
      - intros X. injection X as <- <-. reflexivity. }
    destruct o as [d | d m | n | q | t]; cbn [p_step u_step].
    - apply HA.
    - destruct (length d =? m)%nat; [apply HA|]. intros X. injection X as <- <-. reflexivity.
    - unfold p_try_write, u_guarded. destruct (p_check C p n) as [[]| |]; try discriminate; cbn [obind].
      + destruct (p_write C p n) as [[k p1]| |] eqn:E; try discriminate. cbn [obind]. rewrite (u_write_fine _ _ _ _ E).
        intros X. injection X as <- <-. reflexivity.
      + intros X. injection X as <- <-. reflexivity.
    - destruct K as [k|]; [|intros X; injection X as <- <-; reflexivity]. unfold p_seek, u_seek. cbv zeta.
      destruct (_ <? sk_mod k); [|intros X; injection X as <- <-; reflexivity].
      destruct (p_write_block C _ _ _) as [[t p1]| |] eqn:E; try discriminate. cbn [obind]. rewrite (u_block_fine _ _ _ _ _ E).
      intros X. injection X as <- <-. reflexivity.
    - destruct K as [k|]; [|intros X; injection X as <- <-; reflexivity].
      destruct (p_current C k p t) as [[q|]| |]; try discriminate; cbn [obind]; intros X; injection X as <- <-; reflexivity.
  Qed.
End Fine.
Section Wrapper.
  Context {S : Type} (C : score S) (Q : S -> Prop).
  Hypothesis bs_pos : (1 < sc_bs C <= 255)%nat.
  Hypothesis gen_Q : forall k st o st', Q st -> sc_gen C k st = Ok (o, st') -> Q st' /\ length o = (sc_bs C * k)%nat.
  Context (torn : S -> list N -> list N) (K : option (sseek S)).
  Hypothesis set_Q : match K with None => True | Some k => forall st b, Q st -> b < sk_mod k -> Q (sk_set k st b) end.

  Lemma u_run_fine h : forall w rs w', good C Q w -> run C K w (map snd h) = Ok (rs, w') -> u_run C torn K (pack w) h = answers h rs.
  Proof.
    induction h as [|[f o] h IH]; intros w rs w' H E; cbn [map snd run u_run] in *; [injection E as <- _; reflexivity|].
    destruct (step_ok C Q bs_pos gen_Q K set_Q w o H) as [Es I]. destruct (step C K w o) as [[r w1]|]; [|discriminate E]. cbn [bind lift] in *.
    destruct (run C K w1 (map snd h)) as [[rs1 w2]|] eqn:E1; [|discriminate E]. cbn [bind] in E. injection E as <- _.
    rewrite (u_step_fine C torn K _ _ _ _ Es), (IH _ _ _ (I r w1 eq_refl) E1). cbn [answers]. destruct f, r; reflexivity.
  Qed.
End Wrapper.
Lemma u_core_fine {S} (C : score S) (Q : S -> Prop) (bs_pos : (1 < sc_bs C <= 255)%nat)
  (gen_Q : forall k st o st', Q st -> sc_gen C k st = Ok (o, st') -> Q st' /\ length o = (sc_bs C * k)%nat) K
  (set_Q : match K with None => True | Some k => forall st b, Q st -> b < sk_mod k -> Q (sk_set k st b) end) m h rs :
  (forall st, m = Ok st -> Q st) -> run_core C K m (map snd h) = Ok rs -> u_core C K m h = Ok (answers h rs).
Proof.
  intros Hm E. unfold u_core, run_core in *. destruct m as [st|]; [|discriminate E]. cbn [bind] in *.
  destruct (new_ok C Q bs_pos gen_Q st (Hm st eq_refl)) as [En G]. rewrite En.
  destruct (run C K (w_new C st) (map snd h)) as [[rs' w']|] eqn:R; [|discriminate E]. cbn [bind] in E. injection E as ->.
  f_equal. exact (u_run_fine C Q bs_pos gen_Q untouched K set_Q h _ _ _ G R).
Qed.

(** *** Salsa with overflow checks: a tracked cipher with panics *)
Lemma no_panic_cases ks l strict p o : l_bs l = 64 -> step_spec ks (Some l) strict p o = None ->
  exists q, o = Seek q /\ q / 64 < l_blocks l /\ l_usable l < q.
Proof.
  intros Hb E. destruct o as [d | d m | n | q | t]; cbn [step_spec] in E; cbv zeta in E;
    repeat match type of E with context [if ?x then _ else _] => destruct x eqn:? end; try discriminate E.
  exists q. rewrite Hb in *. split; [reflexivity|]. lia.
Qed.
Lemma u_block_panics {S} (C : score S) st buf n : p_write_block C st buf n = Panics -> u_write_block C untouched st buf n = (Panics, (st, buf)).
Proof.
  unfold p_write_block, u_write_block. destruct (n =? 0)%nat; [discriminate|].
  destruct (assert_ (n <? sc_bs C)%nat); [|reflexivity]. cbn [res obind]. destruct (sc_gen C 1 st) as [[blk st']|]; [discriminate|]. reflexivity.
Qed.
Lemma last_block q : q / 64 < 2 ^ 64 -> 64 * (2 ^ 64 - 1) < q -> q / 64 = 2 ^ 64 - 1.
Proof. change (2 ^ 64) with M64. lia. Qed.
Lemma seek_last_step e n w : step (salsa_score e n) (Some salsa_seek) w (Seek (64 * (2 ^ 64 - 1)))
  = Ok (Done, Build_wrapper (sk_set salsa_seek (w_core w) (2 ^ 64 - 1)) (w_buf w) 64%nat).
Proof. reflexivity. Qed.
Lemma seek_last_spec ks strict P :
  step_spec ks (Some {| l_bs := 64; l_blocks := 2 ^ 64 |}) strict P (Seek (64 * (2 ^ 64 - 1))) = Some (Done, 64 * (2 ^ 64 - 1)).
Proof. destruct strict; reflexivity. Qed.
(** The panicking seek leaves what seeking to the start of the last block leaves. *)
Lemma u_seek_panics e n w q : q / 64 < 2 ^ 64 -> 64 * (2 ^ 64 - 1) < q -> good (salsa_score e n) wf16 w ->
  p_step (salsa_score e n) (Some salsa_seek) (pack w) (Seek q) = Panics ->
  u_step (salsa_score e n) untouched (Some salsa_seek) (pack w) (Seek q)
  = (Panics, pack (Build_wrapper (sk_set salsa_seek (w_core w) (2 ^ 64 - 1)) (w_buf w) 64%nat)).
Proof.
  intros Hq1 Hq2 HG Es. pose proof (last_block q Hq1 Hq2) as Eb. cbn [u_step p_step] in *. unfold p_seek in Es. unfold u_seek. cbv zeta in *.
  assert (Lt : (q / N.of_nat (sc_bs (salsa_score e n)) <? sk_mod salsa_seek) = true) by (apply N.ltb_lt; exact Hq1). rewrite Lt in Es |- *.
  replace (q / N.of_nat (sc_bs (salsa_score e n))) with (2 ^ 64 - 1) in * by (symmetry; exact Eb). cbn [fst snd pack] in *.
  rewrite set_pos_ok in Es |- * by (discriminate || (cbn; lia)). cbn [tl] in *.
  destruct (p_write_block _ _ _ _) as [[t p1]| |] eqn:Ep; try discriminate Es. rewrite (u_block_panics _ _ _ _ Ep). reflexivity.
Qed.
Lemma u_run_tracked e n ks strict w0 h :
  PropertiesSeekNum.tracks (salsa_score e n) salsa_seek ks strict (e_usz e) w0 -> good (salsa_score e n) wf16 w0 -> Forall (call_ok e) (map snd h) ->
  u_run (salsa_score e n) untouched (Some salsa_seek) (pack w0) h = caught_spec ks (Some {| l_bs := 64; l_blocks := 2 ^ 64 |}) strict 0 h.
Proof.
  set (C := salsa_score e n). set (l := {| l_bs := 64; l_blocks := 2 ^ 64 |}).
  assert (bs_pos : (1 < sc_bs C <= 255)%nat) by (cbn; lia).
  assert (gen_Q : forall k st o st', wf16 st -> sc_gen C k st = Ok (o, st') -> wf16 st' /\ length o = (sc_bs C * k)%nat) by apply LifecycleProofs.salsa_gen_Q.
  assert (set_Q : forall st b, wf16 st -> b < sk_mod salsa_seek -> wf16 (sk_set salsa_seek st b)) by (intros; apply LifecycleProofs.salsa_set_wf; assumption).
  intros (_ & _ & WR & H0 & Hstep & _) G0 Hh. change {| l_bs := 64; l_blocks := sk_mod salsa_seek |} with l in Hstep.
  enough (G : forall w P, WR w P -> good C wf16 w -> u_run C untouched (Some salsa_seek) (pack w) h = caught_spec ks (Some l) strict P h) by (apply G; assumption).
  clear w0 H0 G0. induction h as [|[f o] h IH]; intros w P HW HG; [reflexivity|]. cbn [map snd] in Hh. inversion Hh as [|? ? Ho Hh']; subst.
  specialize (IH Hh'). cbn [u_run caught_spec]. unfold caught_step. cbn [fst snd]. pose proof (Hstep w P o HW Ho) as X.
  destruct (step_ok C wf16 bs_pos gen_Q (Some salsa_seek) set_Q w o HG) as [Es I].
  destruct (step_spec ks (Some l) strict P o) as [[r P']|] eqn:E.
  - destruct X as (w' & Ew & HW'). rewrite Ew in Es, I. cbn [lift] in Es. rewrite (u_step_fine C untouched (Some salsa_seek) _ _ _ _ Es).
    rewrite seen_fine. specialize (IH w' P' HW' (I r w' eq_refl)). destruct r, f; cbn [seen]; f_equal; exact IH.
  - destruct (no_panic_cases ks l strict P o eq_refl E) as (q & -> & Hq1 & Hq2).
    rewrite X in Es. cbn [lift] in Es. unfold C in Es |- *. rewrite (u_seek_panics e n w q Hq1 Hq2 HG Es). cbn [seen]. fold C.
    pose proof (Hstep w P (Seek (64 * (2 ^ 64 - 1))) HW Logic.I) as Y. unfold l in Y. rewrite seek_last_spec in Y. destruct Y as (w2 & Y & HW2).
    destruct (step_ok C wf16 bs_pos gen_Q (Some salsa_seek) set_Q w (Seek (64 * (2 ^ 64 - 1))) HG) as [_ J]. specialize (J _ _ Y).
    unfold C in Y. rewrite seek_last_step in Y. injection Y as <-. f_equal. exact (IH _ _ HW2 J).
Qed.

(** ** Every cipher type *)
Theorem C87_caught e c h : env_ok e -> cipher_ok c -> Forall (call_ok e) (map snd h) ->
  caught_run e c h = Ok (caught_spec (cipher_ks c) (cipher_lim c) (cipher_strict e c) 0 h).
Proof.
  intros He Hc Hh.
  assert (Plain : forall rs q, run_spec (cipher_ks c) (cipher_lim c) (cipher_strict e c) 0 (map snd h) = Some (rs, q) ->
            cipher_run e c (map snd h) = Ok rs -> caught_run e c h = Ok (answers h rs) ->
            caught_run e c h = Ok (caught_spec (cipher_ks c) (cipher_lim c) (cipher_strict e c) 0 h)).
  { intros rs q E _ ->. rewrite (caught_answers _ _ _ _ _ _ _ E). reflexivity. }
  assert (Run : cipher_strict e c = false -> exists rs q, run_spec (cipher_ks c) (cipher_lim c) (cipher_strict e c) 0 (map snd h) = Some (rs, q)
            /\ cipher_run e c (map snd h) = Ok rs).
  { intros Hs. pose proof (C17_history e c _ He Hc Hh) as E. pose proof (no_panic_spec (cipher_ks c) (cipher_lim c) _ (map snd h) Hs 0) as Hn.
    destruct (run_spec _ _ _ 0 (map snd h)) as [[rs q]|]; [|contradiction]. eauto. }
  destruct c as [v n key iv | n key iv | n key iv | n key iv | key iv | key | key iv | key].
  - destruct (Run eq_refl) as (rs & q & E1 & E2). apply (Plain rs q E1 E2). cbn [caught_run cipher_run] in *.
    refine (u_core_fine _ wf16 _ _ _ _ _ h rs _ E2).
    + cbn; lia.
    + apply LifecycleProofs.chacha_gen_Q.
    + intros st b. apply LifecycleProofs.set_block_pos_wf.
    + intros st Est. cbn [cipher_ok] in Hc. assert (X : octets 32 key /\ octets (nonce_len v) iv) by (destruct v; exact Hc). destruct X as [[? ?] [? ?]].
      rewrite new_internal_ok in Est by assumption. injection Est as <-. apply mk_state_wf; assumption.
  - destruct (Run eq_refl) as (rs & q & E1 & E2). apply (Plain rs q E1 E2). cbn [caught_run cipher_run] in *.
    refine (u_core_fine _ wf16 _ _ _ _ _ h rs _ E2).
    + cbn; lia.
    + apply LifecycleProofs.chacha_gen_Q.
    + intros st b. apply LifecycleProofs.set_block_pos_wf.
    + intros st Est. destruct Hc as [[Hk Bk] [Hi Bi]]. rewrite xchacha_new_ok in Est by assumption. assert (X : st = mk_state Ietf (hchacha n key (firstn 16 iv)) (xnonce iv) 0) by congruence. rewrite X. clear X Est.
      assert (H16 : List.length (firstn 16 iv) = 16%nat) by (rewrite firstn_length, Hi; reflexivity).
      apply mk_state_wf.
      * apply hchacha_length; try assumption. apply bytes_firstn; exact Bi.
      * unfold xnonce. rewrite app_length, repeat_length, skipn_length, Hi. reflexivity.
      * apply hchacha_bytes; assumption.
      * unfold xnonce. apply Forall_app. split; [repeat constructor | apply bytes_skipn; exact Bi].
  - clear Plain Run. destruct Hc as [[Hk Bk] [Hi Bi]]. cbn [caught_run cipher_lim cipher_strict]. unfold u_core. cbn [bind]. f_equal.
    rewrite salsa_new_eq by assumption.
    assert (W : wf16 (s_state key iv 0)) by (apply s_state_wf; assumption).
    destruct (new_ok (salsa_score e n) wf16 ltac:(cbn; lia) ltac:(apply LifecycleProofs.salsa_gen_Q) _ W) as [En G]. rewrite En.
    apply u_run_tracked; [|exact G | exact Hh]. apply PropertiesSeekNum.salsa_tracks; assumption.
  - clear Plain Run. destruct Hc as [[Hk Bk] [Hi Bi]]. cbn [caught_run cipher_lim cipher_strict]. unfold u_core. cbn [bind]. f_equal.
    rewrite xsalsa_new_eq by assumption.
    assert (H16 : List.length (firstn 16 iv) = 16%nat) by (rewrite firstn_length, Hi; reflexivity).
    assert (H8 : List.length (skipn 16 iv) = 8%nat) by (rewrite skipn_length, Hi; reflexivity).
    assert (Hk' : List.length (hsalsa n key (firstn 16 iv)) = 32%nat) by (apply hsalsa_length; assumption).
    assert (Bk' : bytes (hsalsa n key (firstn 16 iv))) by (apply hsalsa_bytes; assumption).
    assert (Bi' : bytes (skipn 16 iv)) by (apply bytes_skipn; exact Bi).
    assert (W : wf16 (s_state (hsalsa n key (firstn 16 iv)) (skipn 16 iv) 0)) by (apply s_state_wf; assumption).
    destruct (new_ok (salsa_score e n) wf16 ltac:(cbn; lia) ltac:(apply LifecycleProofs.salsa_gen_Q) _ W) as [En G]. rewrite En.
    replace (cipher_ks (CXSalsa n key iv)) with (ks_of_blocks 64 (ss_block n (hsalsa n key (firstn 16 iv)) (skipn 16 iv)))
      by (rewrite hsalsa_spec by auto using bytes_firstn; reflexivity).
    apply u_run_tracked; [|exact G | exact Hh]. apply PropertiesSeekNum.salsa_tracks; assumption.
  - destruct (Run eq_refl) as (rs & q & E1 & E2). apply (Plain rs q E1 E2). cbn [caught_run cipher_run] in *.
    refine (u_core_fine _ rwf _ _ _ _ _ h rs _ E2).
    + cbn; lia.
    + apply LifecycleProofs.rabbit_gen_Q.
    + exact Logic.I.
    + intros st Est. destruct Hc as [[Hk Bk] [Hi Bi]]. destruct (setup_key_ok (e_ck e) key Hk Bk) as (s0 & E0 & Hwf0 & _).
      destruct (setup_iv_ok (e_ck e) iv s0 Hi Bi Hwf0) as (s & E' & Hwf & _).
      unfold rabbit_new, rabbit_key_only in Est. rewrite E0 in Est. cbn [bind] in Est. rewrite E' in Est. injection Est as <-. exact Hwf.
  - destruct (Run eq_refl) as (rs & q & E1 & E2). apply (Plain rs q E1 E2). cbn [caught_run cipher_run] in *.
    refine (u_core_fine _ rwf _ _ _ _ _ h rs _ E2).
    + cbn; lia.
    + apply LifecycleProofs.rabbit_gen_Q.
    + exact Logic.I.
    + intros st Est. destruct Hc as [Hk Bk]. destruct (setup_key_ok (e_ck e) key Hk Bk) as (s0 & E0 & Hwf0 & _).
      unfold rabbit_key_only in Est. rewrite E0 in Est. injection Est as <-. exact Hwf0.
  - destruct (Run eq_refl) as (rs & q & E1 & E2). apply (Plain rs q E1 E2). cbn [caught_run cipher_run] in *.
    refine (u_core_fine _ LifecycleProofs.hwf _ _ _ _ _ h rs _ E2).
    + cbn; lia.
    + intros k st o st'. apply LifecycleProofs.hc_gen_Q, He.
    + exact Logic.I.
    + intros st Est. destruct Hc as [[Hk Bk] [Hi Bi]].
      assert (Hu : usize_ok (2 ^ e_usz e)).
      { unfold usize_ok. destruct He as [-> | [-> | ->]]; [left | right; left | right; right]; reflexivity. }
      destruct (hc_new_ok key iv Hk Bk Hi Bi (e_ck e) _ Hu) as (s & E' & H). rewrite E' in Est. injection Est as <-.
      exists (hc_init key iv), 0%nat. exact H.
  - destruct (Run eq_refl) as (rs & q & E1 & E2). apply (Plain rs q E1 E2). cbn [caught_run cipher_run] in *. clear -E2.
    destruct (new_from_slice key) as [[s|]|]; cbn [bind] in *; try discriminate E2. f_equal.
    destruct (rc4_run s (map snd h)) as [[rs' s']|] eqn:E; [|discriminate E2]. injection E2 as ->. revert s rs s' E.
    induction h as [|[f o] h IH]; intros s rs s' E; cbn [map snd rc4_run u_rc4] in *; [injection E as <- _; reflexivity|].
    destruct (rc4_step s o) as [[r s1]|]; [|discriminate E]. cbn [bind] in E.
    destruct (rc4_run s1 (map snd h)) as [[rs1 s2]|] eqn:E1; [|discriminate E]. injection E as <- _. cbn [answers]. f_equal. exact (IH _ _ _ E1).
Qed.
Print Assumptions C87_caught.

(** The order of the two writes in [salsa20/src/backends/soft.rs:24-28] matters: were the block
    written before the counter is moved, a caught panic would leave keystream in the cursor, and
    the next call would be undefined behaviour. *)
Definition written_first (n : nat) (st buf : list N) : list N :=
  match salsa_write false n 1 st with Ok (blk, _) => blk | Panic => buf end.
Theorem C87_order : exists e n key iv, octets 32 key /\ octets 8 iv
  /\ u_run (salsa_score e n) (written_first n) (Some salsa_seek) (p_new (salsa_score e n) (salsa_new key iv))
       [(false, Seek (64 * (2 ^ 64 - 1) + 1)); (false, Write 1)] = [Caught; UB]
  /\ u_run (salsa_score e n) untouched (Some salsa_seek) (p_new (salsa_score e n) (salsa_new key iv))
       [(false, Seek (64 * (2 ^ 64 - 1) + 1)); (false, Write 1)] = [Caught; Ret Err].
Proof.
  exists {| e_cfg := e_cfg ex_env; e_cpu := e_cpu ex_env; e_usz := 64; e_ck := true |}, 10%nat, (repeat 4 32), (repeat 2 8).
  split; [checks|]. split; [checks|]. split; vm_compute; reflexivity.
Qed.
Print Assumptions C87_order.

(** ** Generators *)
(** [get_block_pos] near the wrap (C26) is the only call that panics, and it changes nothing:
    the other answers are those of the history without it. *)
Fixpoint rg_caught (n : nat) (ck : bool) (g : rg) (i : N) (h : list rop) : list (got rret) :=
  match h with
  | [] => []
  | o :: h' =>
      if ck && match o with GetBlockPos => straddles g i | _ => false end then Caught :: rg_caught n ck g i h'
      else let (x, g1) := rg_step n g o in Ret x :: rg_caught n ck g1 (handed o i) h'
  end.
Theorem C87_rng n c p ck r h : reachable n r -> Forall rop_ok h ->
  rng_caught (rng_gen c p n) ck r h = rg_caught n ck (at_ r) (N.of_nat (word_offset r)) h.
Proof.
  intros H Hok. destruct (reach_inv n r H) as [Hb Hf]. pose proof (reach_rel n r H) as HR.
  assert (Hi : at_i r (N.of_nat (word_offset r))) by (rewrite (offset_i r _ Hb eq_refl); reflexivity).
  clear H. revert HR Hb Hf Hi. generalize (at_ r) (N.of_nat (word_offset r)). intros g i. revert r g i.
  induction h as [|o h IH]; intros r g i HR Hb Hf Hi; cbn [rng_caught rg_caught]; [reflexivity|].
  inversion Hok as [|? ? Ho Hok']; subst. specialize (IH Hok'). assert (Hs := straddle_ok n r g i HR Hb Hi).
  destruct (ck && match o with GetBlockPos => straddles g i | _ => false end) eqn:Ep.
  - destruct ck; [|discriminate Ep]. destruct o; try discriminate Ep. cbn [andb] in Ep. pose proof HR as (Hsl & Hsb & Hst & P & Eg & HR').
    cbn [rng_step]. rewrite (get_block_pos_ok c p n _ Hsl Hsb true r _ P HR'). rewrite Hs, Ep. cbn [bind by_ref]. f_equal. apply IH; assumption.
  - destruct (rel_step c p ck n r g o HR Ho) as [(E & -> & ->) | (r1 & E & HR1)].
    + exfalso. pose proof HR as (Hsl & Hsb & Hst & P & Eg & HR'). cbn [rng_step] in E. cbn [andb] in Ep.
      rewrite (get_block_pos_ok c p n _ Hsl Hsb true r _ P HR'), Hs, Ep in E. discriminate E.
    + destruct (step_i c p n ck r i o _ r1 Hb Hf Hi Ho E) as (Hb1 & Hf1 & Hi1). rewrite E.
      destruct (rg_step n g o) as [x g1]. cbn [fst snd] in *. f_equal. apply IH; assumption.
Qed.
Print Assumptions C87_rng.

(** Instances: Salsa20 with overflow checks, two caught panics (a seek into the last block, an
    unwrapped request beyond the end), then usable again; the same history of ChaCha20Legacy
    without the first panic; a generator asked for its block position just after the wrap. *)
Example C87_satisfiable :
  let e := {| e_cfg := e_cfg ex_env; e_cpu := e_cpu ex_env; e_usz := 64; e_ck := true |} in
  let h := [(false, Seek (2 ^ 70 - 5)); (false, CurPos (2 ^ 128)); (true, Write 1); (true, Seek 3); (false, Write 2)] in
  let c := CSalsa 10 (repeat 1 32) (repeat 2 8) in
  env_ok e /\ cipher_ok c /\ Forall (call_ok e) (map snd h)
  /\ match caught_run e c h with
     | Ok [Caught; Ret (Pos p); Caught; Ret Done; Ret (Bytes b)] => p = 2 ^ 70 - 64 /\ b = [cipher_ks c 3; cipher_ks c 4]
     | _ => False
     end
  /\ match caught_run e (CChaCha Legacy 10 (repeat 1 32) (repeat 2 8)) h with
     | Ok [Ret Done; Ret Err; Ret (Bytes b); Ret Done; Ret (Bytes _)] => length b = 1%nat
     | _ => False
     end
  /\ match rng_from_seed (repeat 7 32) with
     | Ok r => match rng_caught (rng_gen (e_cfg e) (e_cpu e) 10) true r [SetWordPos (2 ^ 68 - 1); GetBlockPos; NextU32; GetBlockPos; GetWordPos] with
               | [Ret _; Caught; Ret _; Caught; Ret (Num p)] => p = 0
               | _ => False
               end
     | Panic => False
     end.
Proof.
  cbv zeta. split; [right; right; reflexivity|]. split; [split; checks|]. split; [repeat constructor|].
  split; [vm_compute; split; reflexivity|]. split; vm_compute; reflexivity.
Qed.
