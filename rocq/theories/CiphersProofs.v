(** Every cipher type is the position machine of [SpecStream] on its specified keystream. *)
From Verif Require Import Word Res WordLemmas PropCommon SpecStream SpecChaCha SpecSalsa SpecRabbit SpecRC4 SpecHC256
  ChaChaCore ChaChaProofs ChaChaDispatch XChaCha ChaChaDispatchProofs
  CipherWrapper WrapperProofs Salsa SalsaProofs Rabbit RabbitProofs Hc256 Hc256Proofs Rc4 Rc4Proofs Ciphers.
From Coq Require Import ZArith Lia ZifyBool ZifyNat ZifyN.
Ltac Zify.zify_post_hook ::= Z.div_mod_to_equations.

(** ** The specified keystreams *)
Definition cipher_ks (c : cipher) : N -> N :=
  match c with
  | CChaCha Ietf n key iv => ks_of_blocks 64 (fun i => sp_ietf_block n key i iv)
  | CChaCha Legacy n key iv => ks_of_blocks 64 (fun i => sp_djb_block n key i iv)
  | CXChaCha n key iv => ks_of_blocks 64 (fun i => sp_xchacha_block n key i iv)
  | CSalsa n key iv => ks_of_blocks 64 (ss_block n key iv)
  | CXSalsa n key iv => ks_of_blocks 64 (ss_xblock n key iv)
  | CRabbit key iv => ks_of_blocks 16 (fun i => rb_key_iv_block key iv (N.to_nat i))
  | CRabbitKeyOnly key => ks_of_blocks 16 (fun i => rb_key_block key (N.to_nat i))
  | CHc256 key iv => ks_of_blocks 4 (fun i => rb_octets 4 (hc_word key iv (N.to_nat i)))
  | CRc4 key => fun j => rc_byte key (N.to_nat j)
  end.
(** Block-counter limits of the seekable ciphers. *)
Definition cipher_lim (c : cipher) : option limits :=
  match c with
  | CChaCha Ietf _ _ _ | CXChaCha _ _ _ => Some {| l_bs := 64; l_blocks := 2 ^ 32 |}
  | CChaCha Legacy _ _ _ | CSalsa _ _ _ | CXSalsa _ _ _ => Some {| l_bs := 64; l_blocks := 2 ^ 64 |}
  | _ => None
  end.
(** Panics on a seek into the final block: Salsa in builds with overflow checks. *)
Definition cipher_strict (e : env) (c : cipher) : bool :=
  match c with CSalsa _ _ _ | CXSalsa _ _ _ => e_ck e | _ => false end.
(** Key material of the right size. *)
Definition cipher_ok (c : cipher) : Prop :=
  match c with
  | CChaCha Ietf _ key iv => octets 32 key /\ octets 12 iv
  | CChaCha Legacy _ key iv => octets 32 key /\ octets 8 iv
  | CXChaCha _ key iv => octets 32 key /\ octets 24 iv
  | CSalsa _ key iv => octets 32 key /\ octets 8 iv
  | CXSalsa _ key iv => octets 32 key /\ octets 24 iv
  | CRabbit key iv => octets 16 key /\ octets 8 iv
  | CRabbitKeyOnly key => octets 16 key
  | CHc256 key iv => octets 32 key /\ octets 32 iv
  | CRc4 key => (1 <= length key <= 256)%nat /\ Forall (fun b => b < 256) key
  end.
Definition env_ok (e : env) : Prop := e_usz e = 16 \/ e_usz e = 32 \/ e_usz e = 64.
(** Buffers are addressable. *)
Definition call_ok (e : env) (o : op) : Prop :=
  match o with
  | Apply d | ApplyB2b d _ => N.of_nat (length d) < 2 ^ e_usz e
  | Write n => N.of_nat n < 2 ^ e_usz e
  | _ => True
  end.

(** ** Cores *)
Definition ctr_mod (v : variant) : N := match v with Ietf => M32 | Legacy => M64 end.
Lemma get_pos_mk v key iv c : length key = 32%nat -> get_block_pos v (mk_state v key iv c) = c mod ctr_mod v.
Proof.
  intros Hk. unfold mk_state. pose proof (words_of_bytes_length 8 key Hk) as Hw.
  destruct (words_of_bytes key) as [|k0 [|k1 [|k2 [|k3 [|k4 [|k5 [|k6 [|k7 [|]]]]]]]]]; try discriminate Hw.
  destruct v; unfold get_block_pos, CONSTANTS, ctr_words, get; cbn [app nth ctr_mod]; [reflexivity|].
  rewrite lor_shift_add.
  - rewrite <- M32_pow. lia.
  - rewrite <- M32_pow. lia.
Qed.
Lemma set_pos_mk v key iv c b : length key = 32%nat -> b < ctr_mod v ->
  set_block_pos v (mk_state v key iv c) b = mk_state v key iv b.
Proof.
  intros Hk Hp. unfold mk_state. pose proof (words_of_bytes_length 8 key Hk) as Hw.
  destruct (words_of_bytes key) as [|k0 [|k1 [|k2 [|k3 [|k4 [|k5 [|k6 [|k7 [|]]]]]]]]]; try discriminate Hw.
  destruct v; unfold set_block_pos, CONSTANTS, ctr_words; cbn [app upd]; cbn [ctr_mod] in Hp.
  - rewrite N.mod_small by lia. reflexivity.
  - unfold as_u32. change 0xFFFFFFFF with (N.ones 32). rewrite N.land_ones, N.shiftr_div_pow2, <- M32_pow.
    rewrite N.mod_mod by discriminate. reflexivity.
Qed.

(** Result of a run, as told by the machine. *)
Definition expect (x : option (list ret * N)) : Res (list ret) :=
  match x with None => Panic | Some (rs, _) => Ok rs end.

Lemma chacha_like e v n key iv blk h :
  length key = 32%nat -> length iv = nonce_len v -> bytes key -> bytes iv ->
  (forall c k, blocks_from v n k (mk_state v key iv c) = flat_map (fun i => blk (c + N.of_nat i)) (seq 0 k)) ->
  Forall (call_ok e) h ->
  run_core (chacha_score e v n) (Some (chacha_seek v)) (Ok (mk_state v key iv 0)) h
  = expect (run_spec (ks_of_blocks 64 blk) (Some {| l_bs := 64; l_blocks := ctr_mod v |}) false 0 h).
Proof.
  intros Hk Hi Bk Bi Hb Hh.
  assert (Hwf : forall c, wf16 (mk_state v key iv c)) by (intros; apply mk_state_wf; assumption).
  assert (Hlen : forall i, length (blk i) = 64%nat).
  { intros i. pose proof (blocks_from_length v n 1 _ (Hwf i)) as H. rewrite Hb in H.
    cbn [seq flat_map] in H. rewrite app_nil_r in H. change (N.of_nat 0) with 0 in H. rewrite N.add_0_r in H. exact H. }
  set (Rep := fun (st : list N) c => st = mk_state v key iv c).
  assert (Hgen : forall st c k, Rep st c -> True -> exists st',
    sc_gen (chacha_score e v n) k st
      = Ok (ks_range (ks_of_blocks 64 blk) (N.of_nat (sc_bs (chacha_score e v n)) * c) (sc_bs (chacha_score e v n) * k), st')
    /\ Rep st' (c + N.of_nat k)).
  { intros st c k -> _. cbn [sc_gen sc_bs chacha_score]. rewrite core_write_ok by apply Hwf. rewrite Hb.
    eexists. split; [|unfold Rep; apply adv_mk_state; exact Hk].
    f_equal. f_equal. apply (ks_of_blocks_range 64); [lia | exact Hlen]. }
  assert (HS : forall (c : N) (a b : nat), True -> True /\ True) by auto.
  pose proof (WRep_new (chacha_score e v n) (ks_of_blocks 64 blk) Rep (fun _ _ => True) ltac:(cbn; lia) Hgen HS (mk_state v key iv 0) 0 eq_refl) as HW.
  rewrite N.mul_0_r in HW.
  assert (Hs : forall (c : N) (k : nat), c mod sk_mod (chacha_seek v) + N.of_nat k < sk_mod (chacha_seek v) -> True) by auto.
  pose proof (run_seekable (chacha_score e v n) (ks_of_blocks 64 blk) Rep (fun _ _ => True) ltac:(cbn; lia) Hgen HS
    (chacha_seek v) (e_usz e) false eq_refl) as R.
  specialize (R ltac:(destruct v; reflexivity)).
  specialize (R ltac:(intros st c ->; apply get_pos_mk; exact Hk)).
  specialize (R ltac:(intros st c b -> Hb'; apply set_pos_mk; assumption)).
  specialize (R ltac:(intros st c ->; cbn [sc_rem chacha_score]; rewrite get_pos_mk by exact Hk; destruct v; reflexivity)).
  specialize (R Hs (fun _ _ _ => I) ltac:(discriminate) h _ _ _ HW ltac:(discriminate) Hh).
  cbn [sk_mod chacha_seek] in R. fold (ctr_mod v) in R.
  unfold run_core. cbn [bind].
  destruct (run_spec (ks_of_blocks 64 blk) (Some {| l_bs := 64; l_blocks := ctr_mod v |}) false 0 h) as [[rs P']|]; cbn [expect].
  - destruct R as (w' & c' & E & _). rewrite E. reflexivity.
  - rewrite R. reflexivity.
Qed.

Lemma s_get_state key iv c : length key = 32%nat -> length iv = 8%nat -> salsa_get_pos (s_state key iv c) = c mod M64.
Proof.
  intros Hk Hi. rewrite s_get_pos. unfold s_state, s_matrix. destruct (half_key key Hk) as [H1 H2].
  pose proof (words_of_bytes_length 2 iv Hi) as H3.
  set (a := words_of_bytes (firstn 16 key)) in *. set (b := words_of_bytes (skipn 16 key)) in *.
  set (i := words_of_bytes iv) in *. len4 a H1. len4 b H2. len2 i H3.
  unfold s_ctr, get; cbn [app nth]. lia.
Qed.
Lemma s_set_state key iv c b : length key = 32%nat -> length iv = 8%nat -> b < M64 ->
  salsa_set_pos (s_state key iv c) b = s_state key iv b.
Proof.
  intros Hk Hi Hb. rewrite s_set_pos by exact Hb. unfold s_state, s_matrix. destruct (half_key key Hk) as [H1 H2].
  pose proof (words_of_bytes_length 2 iv Hi) as H3.
  set (x := words_of_bytes (firstn 16 key)) in *. set (y := words_of_bytes (skipn 16 key)) in *.
  set (i := words_of_bytes iv) in *. len4 x H1. len4 y H2. len2 i H3.
  cbn [app upd]. replace (b / M32 mod M32) with (b / M32) by lia. reflexivity.
Qed.
Lemma s_ctr_state key iv c : length key = 32%nat -> length iv = 8%nat -> s_ctr (s_state key iv c) = c mod M64.
Proof. intros. rewrite <- s_get_pos. apply s_get_state; assumption. Qed.

Lemma salsa_like e n key iv h :
  length key = 32%nat -> length iv = 8%nat -> bytes key -> bytes iv -> Forall (call_ok e) h ->
  run_core (salsa_score e n) (Some salsa_seek) (Ok (s_state key iv 0)) h
  = expect (run_spec (ks_of_blocks 64 (ss_block n key iv)) (Some {| l_bs := 64; l_blocks := M64 |}) (e_ck e) 0 h).
Proof.
  intros Hk Hi Bk Bi Hh.
  set (Rep := fun (st : list N) c => st = s_state key iv c).
  set (safe := fun (c : N) (k : nat) => e_ck e = true -> c mod M64 + N.of_nat k < M64).
  assert (Hgen : forall st c k, Rep st c -> safe c k -> exists st',
    sc_gen (salsa_score e n) k st
      = Ok (ks_range (ks_of_blocks 64 (ss_block n key iv)) (N.of_nat (sc_bs (salsa_score e n)) * c) (sc_bs (salsa_score e n) * k), st')
    /\ Rep st' (c + N.of_nat k)).
  { intros st c k -> Hs. cbn [sc_gen sc_bs salsa_score].
    rewrite salsa_write_ok; [|apply s_state_wf; assumption | rewrite s_ctr_state by assumption; exact Hs].
    rewrite s_blocks_spec by assumption. eexists. split; [|unfold Rep; apply s_adv_state; assumption].
    f_equal. f_equal. apply (ks_of_blocks_range 64); [lia|]. intros i. apply ss_block_length; assumption. }
  assert (HS : forall c a b, safe c (a + b)%nat -> safe c a /\ safe (c + N.of_nat a) b).
  { unfold safe. clear. intros c a b H. split; intros E; specialize (H E); lia. }
  pose proof (WRep_new (salsa_score e n) (ks_of_blocks 64 (ss_block n key iv)) Rep safe ltac:(cbn; lia) Hgen HS (s_state key iv 0) 0 eq_refl) as HW.
  rewrite N.mul_0_r in HW.
  pose proof (run_seekable (salsa_score e n) (ks_of_blocks 64 (ss_block n key iv)) Rep safe ltac:(cbn; lia) Hgen HS
    salsa_seek (e_usz e) (e_ck e) eq_refl eq_refl) as R.
  specialize (R ltac:(intros st c ->; apply s_get_state; assumption)).
  specialize (R ltac:(intros st c b -> Hb'; apply s_set_state; assumption)).
  specialize (R ltac:(intros st c ->; cbn [sc_rem salsa_score]; unfold salsa_remaining; rewrite s_get_state by assumption; reflexivity)).
  assert (H1 : forall c k, c mod sk_mod salsa_seek + N.of_nat k < sk_mod salsa_seek -> safe c k) by (intros c k H _; exact H).
  assert (H2 : e_ck e = false -> forall c k, safe c k) by (intros E c k E'; congruence).
  specialize (R H1 H2).
  assert (H3 : e_ck e = true -> forall st, Rep st (sk_mod salsa_seek - 1) -> sc_gen (salsa_score e n) 1 st = Panic).
  { intros E st ->. cbn [sc_gen salsa_score]. rewrite E. apply salsa_write_panic; [apply s_state_wf; assumption|].
    rewrite s_ctr_state by assumption. cbn [sk_mod salsa_seek]. change (N.of_nat 1) with 1. lia. }
  specialize (R H3 h _ _ _ HW ltac:(intros _; cbn; discriminate) Hh).
  cbn [sk_mod salsa_seek] in R. unfold run_core. cbn [bind].
  destruct (run_spec (ks_of_blocks 64 (ss_block n key iv)) (Some {| l_bs := 64; l_blocks := M64 |}) (e_ck e) 0 h) as [[rs P']|]; cbn [expect].
  - destruct R as (w' & c' & E & _). rewrite E. reflexivity.
  - rewrite R. reflexivity.
Qed.

(** ** Ciphers without seeking *)
Lemma niter_add {A} (f : A -> A) a b x : Nat.iter (a + b) f x = Nat.iter a f (Nat.iter b f x).
Proof. induction a as [|a IH]; [reflexivity|]. cbn. f_equal. exact IH. Qed.
Lemma rabbit_like e s h (key : list N) blk : rwf s ->
  (forall i, blk i = rb_octets 16 (rb_block (to_spec s) i)) ->
  run_core (rabbit_score e) None (Ok s) h
  = expect (run_spec (ks_of_blocks 16 (fun i => blk (N.to_nat i))) None false 0 h).
Proof.
  intros Hwf Hblk.
  set (ks := ks_of_blocks 16 (fun i => blk (N.to_nat i))).
  set (Rep := fun (s' : rstate) c => rwf s' /\ to_spec s' = Nat.iter (N.to_nat c) rb_next (to_spec s)).
  assert (Hlen : forall i, length (blk (N.to_nat i)) = 16%nat).
  { intros i. rewrite Hblk, rb_octets_le. apply to_le_length. }
  assert (Hgen : forall st c k, Rep st c -> True -> exists st',
    sc_gen (rabbit_score e) k st
      = Ok (ks_range ks (N.of_nat (sc_bs (rabbit_score e)) * c) (sc_bs (rabbit_score e) * k), st')
    /\ Rep st' (c + N.of_nat k)).
  { intros st c k [Hst Est] _. cbn [sc_gen sc_bs rabbit_score].
    destruct (rabbit_write_ok (e_ck e) k st Hst) as (s' & E & Hs' & Es'). rewrite E. exists s'. split.
    - f_equal. f_equal. unfold ks. rewrite <- (ks_of_blocks_range 16) by (try lia; exact Hlen).
      apply flat_map_ext. intros i. rewrite Hblk. f_equal. unfold rb_block. f_equal. rewrite Est.
      replace (N.to_nat (c + N.of_nat i)) with (N.to_nat c + i)%nat by lia. generalize (N.to_nat c) as m. intros m.
      replace (S (m + i))%nat with (S i + m)%nat by lia. rewrite niter_add. reflexivity.
    - split; [exact Hs'|]. rewrite Es', Est. replace (N.to_nat (c + N.of_nat k)) with (k + N.to_nat c)%nat by lia.
      rewrite niter_add. reflexivity. }
  assert (HS : forall (c : N) (a b : nat), True -> True /\ True) by auto.
  assert (H0 : Rep s 0) by (split; [exact Hwf | reflexivity]).
  pose proof (WRep_new (rabbit_score e) ks Rep (fun _ _ => True) ltac:(cbn; lia) Hgen HS s 0 H0) as HW. rewrite N.mul_0_r in HW.
  destruct (run_unlimited (rabbit_score e) ks Rep (fun _ _ => True) ltac:(cbn; lia) Hgen HS (fun _ => eq_refl) (fun _ _ => I)
    h _ _ _ HW) as (rs & P' & w' & c' & E1 & E2 & _).
  unfold run_core. cbn [bind]. rewrite E1, E2. reflexivity.
Qed.

Lemma hc_like e key iv s h : env_ok e -> hrel s (hc_run (hc_init key iv) 0) 0 ->
  run_core (hc_score e) None (Ok s) h
  = expect (run_spec (ks_of_blocks 4 (fun i => rb_octets 4 (hc_word key iv (N.to_nat i)))) None false 0 h).
Proof.
  intros He H0.
  assert (Hu : usize_ok (2 ^ e_usz e)).
  { unfold usize_ok. destruct He as [-> | [-> | ->]]; [left | right; left | right; right]; reflexivity. }
  set (blk := fun i => rb_octets 4 (hc_word key iv (N.to_nat i))). set (ks := ks_of_blocks 4 blk).
  set (Rep := fun (s' : hc) c => hrel s' (hc_run (hc_init key iv) (N.to_nat c)) c).
  assert (Hlen : forall i, length (blk i) = 4%nat) by (intros i; unfold blk; rewrite rb_octets_le; apply to_le_length).
  assert (Hgen : forall st c k, Rep st c -> True -> exists st',
    sc_gen (hc_score e) k st
      = Ok (ks_range ks (N.of_nat (sc_bs (hc_score e)) * c) (sc_bs (hc_score e) * k), st')
    /\ Rep st' (c + N.of_nat k)).
  { intros st c k Hst _. cbn [sc_gen sc_bs hc_score]. unfold Rep in Hst. rewrite <- (N2Nat.id c) in Hst at 2.
    destruct (hc_write_ok (e_ck e) (2 ^ e_usz e) k (hc_init key iv) Hu (N.to_nat c) st Hst) as (s' & E & Hs').
    rewrite E. exists s'. split.
    - f_equal. f_equal. unfold ks. change 4 with (N.of_nat 4). rewrite <- (ks_of_blocks_range 4) by (try lia; exact Hlen).
      rewrite <- (Nat.add_0_r (N.to_nat c)) at 1. rewrite !flat_map_concat_map. f_equal.
      replace (seq (N.to_nat c + 0) k) with (map (fun i => N.to_nat c + i)%nat (seq 0 k)).
      + rewrite map_map. apply map_ext. intros i. unfold blk. rewrite rb_octets_le.
        replace (N.to_nat (c + N.of_nat i)) with (N.to_nat c + i)%nat by lia. reflexivity.
      + clear. generalize 0%nat as a. induction k as [|k IH]; intros a; cbn [seq map]; [reflexivity|].
        rewrite IH. rewrite Nat.add_succ_r. reflexivity.
    - unfold Rep. replace (N.to_nat (c + N.of_nat k)) with (N.to_nat c + k)%nat by lia.
      replace (c + N.of_nat k) with (N.of_nat (N.to_nat c + k)) by lia. exact Hs'. }
  assert (HS : forall (c : N) (a b : nat), True -> True /\ True) by auto.
  pose proof (WRep_new (hc_score e) ks Rep (fun _ _ => True) ltac:(cbn; lia) Hgen HS s 0 H0) as HW. rewrite N.mul_0_r in HW.
  destruct (run_unlimited (hc_score e) ks Rep (fun _ _ => True) ltac:(cbn; lia) Hgen HS (fun _ => eq_refl) (fun _ _ => I)
    h _ _ _ HW) as (rs & P' & w' & c' & E1 & E2 & _).
  unfold run_core. cbn [bind]. rewrite E1, E2. reflexivity.
Qed.

(** ** All of them *)
Theorem cipher_run_ok e c h : env_ok e -> cipher_ok c -> Forall (call_ok e) h ->
  cipher_run e c h = expect (run_spec (cipher_ks c) (cipher_lim c) (cipher_strict e c) 0 h).
Proof.
  intros He Hc Hh. change (2 ^ 32) with M32. change (2 ^ 64) with M64.
  destruct c as [v n key iv | n key iv | n key iv | n key iv | key iv | key | key iv | key]; cbn [cipher_run cipher_lim cipher_strict cipher_ok] in *.
  - assert (Hc' : octets 32 key /\ octets (nonce_len v) iv) by (destruct v; exact Hc).
    destruct Hc' as [[Hk Bk] [Hi Bi]]. rewrite new_internal_ok by assumption.
    rewrite (chacha_like e v n key iv (fun i => spec_block v n key i iv)) by
      (try assumption; intros; apply blocks_from_spec; assumption).
    destruct v; reflexivity.
  - destruct Hc as [[Hk Bk] [Hi Bi]]. rewrite xchacha_new_ok by assumption.
    assert (H16 : length (firstn 16 iv) = 16%nat) by (rewrite firstn_length, Hi; reflexivity).
    assert (Hx : length (xnonce iv) = 12%nat) by (unfold xnonce; rewrite app_length, repeat_length, skipn_length, Hi; reflexivity).
    apply (chacha_like e Ietf n _ _ (fun i => sp_xchacha_block n key i iv)).
    + apply hchacha_length; auto using bytes_firstn.
    + exact Hx.
    + apply hchacha_bytes; assumption.
    + unfold xnonce. apply Forall_app. split; [repeat constructor | apply bytes_skipn; exact Bi].
    + intros. apply xchacha_blocks; assumption.
    + exact Hh.
  - destruct Hc as [[Hk Bk] [Hi Bi]]. rewrite salsa_new_eq by assumption. apply salsa_like; assumption.
  - destruct Hc as [[Hk Bk] [Hi Bi]]. rewrite xsalsa_new_eq by assumption.
    assert (H16 : length (firstn 16 iv) = 16%nat) by (rewrite firstn_length, Hi; reflexivity).
    assert (H8 : length (skipn 16 iv) = 8%nat) by (rewrite skipn_length, Hi; reflexivity).
    rewrite salsa_like; try assumption.
    + rewrite hsalsa_spec by auto using bytes_firstn. reflexivity.
    + apply hsalsa_length; assumption.
    + apply hsalsa_bytes; assumption.
    + apply bytes_skipn. exact Bi.
  - destruct Hc as [[Hk Bk] [Hi Bi]]. destruct (setup_key_ok (e_ck e) key Hk Bk) as (s0 & E0 & Hwf0 & Es0).
    destruct (setup_iv_ok (e_ck e) iv s0 Hi Bi Hwf0) as (s & E & Hwf & Es).
    unfold rabbit_new, rabbit_key_only. rewrite E0. cbn [bind]. rewrite E.
    apply (rabbit_like e s h key (rb_key_iv_block key iv) Hwf). intros i. rewrite Es, Es0. reflexivity.
  - destruct Hc as [Hk Bk]. destruct (setup_key_ok (e_ck e) key Hk Bk) as (s & E & Hwf & Es).
    unfold rabbit_key_only. rewrite E.
    apply (rabbit_like e s h key (rb_key_block key) Hwf). intros i. rewrite Es. reflexivity.
  - destruct Hc as [[Hk Bk] [Hi Bi]].
    assert (Hu : usize_ok (2 ^ e_usz e)).
    { unfold usize_ok. destruct He as [-> | [-> | ->]]; [left | right; left | right; right]; reflexivity. }
    destruct (hc_new_ok key iv Hk Bk Hi Bi (e_ck e) _ Hu) as (s & E & H). rewrite E. apply hc_like; assumption.
  - destruct Hc as [Hk Bk]. destruct (new_ok key Hk) as (s & E & Hwf & Hr). rewrite E. cbn [bind].
    destruct (rc4_run_ok s h Hwf 0) as (rs & p & E1 & E2). change (prga_iter (N.to_nat 0) s) with s in E2. rewrite E2. cbn [bind].
    rewrite <- (run_spec_ext (sks s)); [rewrite E1; reflexivity|]. intros j. apply sbyte_spec; assumption.
Qed.
