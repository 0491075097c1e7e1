(** C70: the block-level interface. *)
From Verif Require Import Word Res WordLemmas PropCommon SpecStream SpecChaCha SpecSalsa SpecRabbit SpecHC256
  ChaChaCore ChaChaProofs ChaChaBackend ChaChaDispatch XChaCha ChaChaDispatchProofs
  CipherWrapper WrapperProofs Salsa SalsaProofs Rabbit RabbitProofs Hc256 Hc256Proofs Ciphers CiphersProofs StreamLemmas BlockApi PropertiesStream.
From Coq Require Import ZArith Lia ZifyBool ZifyNat ZifyN.

(** Padding a short tail to a block and cutting the result back is XOR with the keystream. *)
Lemma xorb_pad d : forall z k, (length d <= length k)%nat -> firstn (length d) (xorb_list (d ++ z) k) = xorb_list d (firstn (length d) k).
Proof.
  induction d as [|x d IH]; intros z k H; [reflexivity|]. destruct k as [|y k]; [cbn in H; lia|].
  cbn [app xorb_list length firstn] in *. f_equal. apply IH. lia.
Qed.
Lemma firstn_ks_range ks p n m : (n <= m)%nat -> firstn n (ks_range ks p m) = ks_range ks p n.
Proof.
  intros H. replace m with (n + (m - n))%nat by lia. rewrite ks_range_app.
  rewrite firstn_app, ks_range_length, Nat.sub_diag, firstn_O, app_nil_r. apply firstn_all2. rewrite ks_range_length. lia.
Qed.
Lemma tail_block ks p m d : (length d <= m)%nat ->
  firstn (length d) (xorb_list (d ++ repeat 0 (m - length d)) (ks_range ks p m)) = xorb_list d (ks_range ks p (length d)).
Proof. intros H. rewrite xorb_pad by (rewrite ks_range_length; exact H). rewrite firstn_ks_range by exact H. reflexivity. Qed.

(** ** The machine
    Its only state is a block number; [M] is the number of counter values of a seekable core.
    Nothing stops a caller at the end: the number simply runs on, and the keystream repeats
    (C65).  [strict]: running into the last counter value panics ([salsa20] with overflow
    checks). *)
Definition b_rem (usz : N) (M : option N) (b : N) : option N :=
  match M with
  | None => None
  | Some M => let r := M - 1 - b mod M in if r <? 2 ^ usz then Some r else None
  end.
Definition b_may (M : option N) (strict : bool) (b : N) (k : nat) : bool :=
  match M with None => true | Some M => negb strict || (b mod M + N.of_nat k <? M) end.
Definition b_step (ks : N -> N) (bs : nat) (M : option N) (usz : N) (strict : bool) (b : N) (o : bop) : option (bret * N) :=
  let at_b := N.of_nat bs * b in
  let gen k out := if b_may M strict b k then Some (BBytes out, b + N.of_nat k) else None in
  match o with
  | BRemaining => Some (BCount (b_rem usz M b), b)
  | BWrite1 => gen 1%nat (ks_range ks at_b bs)
  | BWrite k => gen k (ks_range ks at_b (bs * k))
  | BApply1 d => gen 1%nat (ks_xor ks at_b d)
  | BApply d => gen (length d / bs)%nat (ks_xor ks at_b d)
  | BGetPos => match M with None => Some (BNone, b) | Some M => Some (BPos (b mod M), b) end
  | BSetPos x => match M with None => Some (BNone, b) | Some _ => Some (BDone, x) end
  end.
Fixpoint b_run (ks : N -> N) (bs : nat) (M : option N) (usz : N) (strict : bool) (b : N) (h : list bop) : option (list bret * N) :=
  match h with
  | [] => Some ([], b)
  | o :: h' =>
      match b_step ks bs M usz strict b o with
      | None => None
      | Some (r, b1) => match b_run ks bs M usz strict b1 h' with None => None | Some (rs, b2) => Some (r :: rs, b2) end
      end
  end.
(** The consuming call: an error exactly when it needs more blocks than remain. *)
Definition b_partial (ks : N -> N) (bs : nat) (M : option N) (usz : N) (b : N) (d : list N) : option (list N) :=
  if match b_rem usz M b with Some r => r <? N.of_nat ((length d + bs - 1) / bs) | None => false end then None
  else Some (ks_xor ks (N.of_nat bs * b) d).
Definition b_all ks bs M usz strict (h : list bop) (last : option (list N)) : Res (list bret * option (option (list N))) :=
  match b_run ks bs M usz strict 0 h with
  | None => Panic
  | Some (rs, b) => Ok (rs, match last with None => None | Some d => Some (b_partial ks bs M usz b d) end)
  end.

(** Calls on the core followed by calls on a cipher made from it. *)
Definition m_all ks bs M usz strict (h : list bop) (ho : list op) : Res (list bret * list ret) :=
  match b_run ks bs M usz strict 0 h with
  | None => Panic
  | Some (rs, b) =>
      match run_spec ks (option_map (fun M => {| l_bs := 64; l_blocks := M |}) M) strict (N.of_nat bs * b) ho with
      | None => Panic
      | Some (rs', _) => Ok (rs, rs')
      end
  end.

(** What the types demand of the arguments. *)
Definition bop_ok (bs : nat) (M : option N) (o : bop) : Prop :=
  match o with
  | BApply1 d => length d = bs
  | BApply d => (length d mod bs = 0)%nat
  | BSetPos x => match M with None => True | Some M => x < M end
  | _ => True
  end.

(** ** Any core *)
Section Any.
  Context {S : Type} (C : score S) (one : S -> Res (list N * S)) (K : option (sseek S)) (ks : N -> N)
    (Rep : S -> N -> Prop) (M : option N) (usz : N) (strict : bool).
  Let bs := sc_bs C.
  Hypothesis Hbs : (0 < bs)%nat.
  Hypothesis Hgen : forall st c k, Rep st c -> b_may M strict c k = true ->
    exists st', sc_gen C k st = Ok (ks_range ks (N.of_nat bs * c) (bs * k), st') /\ Rep st' (c + N.of_nat k).
  Hypothesis Hpanic : forall st c k, Rep st c -> b_may M strict c k = false -> sc_gen C k st = Panic.
  Hypothesis Hone : forall st c, Rep st c -> one st = sc_gen C 1 st.
  Hypothesis HK : match K, M with
    | None, None => strict = false /\ forall st, sc_rem C st = None
    | Some K, Some M => (sc_bs C = 64%nat /\ sk_mod K = M /\ 1 < M) /\ (forall st c, Rep st c -> sk_get K st = c mod M) /\ (forall st c b, Rep st c -> b < M -> Rep (sk_set K st b) b)
    | _, _ => False
    end.
  Hypothesis Hrem : forall st c, Rep st c -> sc_rem C st = b_rem usz M c.

  Lemma bstep_ok st c o : Rep st c -> bop_ok bs M o ->
    match b_step ks bs M usz strict c o with
    | None => bstep C one K st o = Panic
    | Some (r, c') => exists st', bstep C one K st o = Ok (r, st') /\ Rep st' c'
    end.
  Proof.
    intros HR Ho.
    assert (HG : forall k (f : list N -> list N), match (if b_may M strict c k then Some (BBytes (f (ks_range ks (N.of_nat bs * c) (bs * k))), c + N.of_nat k) else None) with
      | None => bind (sc_gen C k st) (fun x => let '(k, st') := x in Ok (BBytes (f k), st')) = Panic
      | Some (r, c') => exists st', bind (sc_gen C k st) (fun x => let '(k, st') := x in Ok (BBytes (f k), st')) = Ok (r, st') /\ Rep st' c'
      end).
    { intros k f. destruct (b_may M strict c k) eqn:E.
      - destruct (Hgen st c k HR E) as (st' & E1 & H1). rewrite E1. cbn [bind]. eauto.
      - rewrite (Hpanic st c k HR E). reflexivity. }
    destruct o as [| |k|d|d| |x]; cbn [b_step bstep bop_ok] in *; cbv zeta.
    - rewrite (Hrem st c HR). eauto.
    - rewrite (Hone st c HR). specialize (HG 1%nat (fun l => l)). rewrite Nat.mul_1_r in HG. exact HG.
    - apply (HG k (fun l => l)).
    - rewrite (Hone st c HR). specialize (HG 1%nat (xorb_list d)). rewrite Nat.mul_1_r in HG. rewrite ks_xor_eq, Ho. exact HG.
    - specialize (HG (length d / bs)%nat (xorb_list d)). rewrite ks_xor_eq.
      replace (bs * (length d / bs))%nat with (length d) in HG by (apply Nat.div_exact in Ho; lia). exact HG.
    - destruct K as [K0|], M as [M0|]; try contradiction; [|eauto]. destruct HK as (_ & Hg & _). rewrite (Hg st c HR). eauto.
    - destruct K as [K0|], M as [M0|]; try contradiction; [|eauto]. destruct HK as (_ & _ & Hs). eexists. split; [reflexivity|]. apply (Hs st c); assumption.
  Qed.
  Lemma brun_ok h : forall st c, Rep st c -> Forall (bop_ok bs M) h ->
    match b_run ks bs M usz strict c h with
    | None => brun C one K st h = Panic
    | Some (rs, c') => exists st', brun C one K st h = Ok (rs, st') /\ Rep st' c'
    end.
  Proof.
    induction h as [|o h IH]; intros st c HR Hh; cbn [b_run brun]; [eauto|].
    inversion Hh as [|? ? Ho Hh']; subst. pose proof (bstep_ok st c o HR Ho) as H1.
    destruct (b_step ks bs M usz strict c o) as [[r c1]|]; [|rewrite H1; reflexivity].
    destruct H1 as (st1 & E1 & HR1). rewrite E1. cbn [bind]. specialize (IH st1 c1 HR1 Hh').
    destruct (b_run ks bs M usz strict c1 h) as [[rs c2]|]; [|rewrite IH; reflexivity].
    destruct IH as (st2 & E2 & HR2). rewrite E2. cbn [bind]. eauto.
  Qed.
  (** The guard of the consuming call also keeps it away from the overflow. *)
  Lemma partial_ok st c d : Rep st c -> N.of_nat (length d) < 2 ^ usz -> partial C one st d = Ok (b_partial ks bs M usz c d).
  Proof.
    intros HR Hd. unfold partial, b_partial. fold bs. cbv zeta. rewrite (Hrem st c HR).
    set (L := length d) in *.
    assert (Hb : (if (L mod bs =? 0)%nat then (L / bs)%nat else (L / bs + 1)%nat) = ((L + bs - 1) / bs)%nat).
    { destruct (Nat.eqb_spec (L mod bs) 0) as [E|E].
      - pose proof (Nat.div_mod L bs ltac:(lia)) as D. rewrite E in D.
        apply (Nat.div_unique _ bs (L / bs) (bs - 1)); lia.
      - pose proof (Nat.div_mod L bs ltac:(lia)) as D. pose proof (Nat.mod_upper_bound L bs ltac:(lia)) as U.
        apply (Nat.div_unique _ bs (L / bs + 1) (L mod bs - 1)); lia. }
    rewrite Hb. destruct (match b_rem usz M c with Some r => r <? N.of_nat ((L + bs - 1) / bs) | None => false end) eqn:ER; [reflexivity|].
    set (m := ((L + bs - 1) / bs)%nat) in *.
    assert (HmL : (m <= L)%nat).
    { unfold m. destruct L as [|L']; [rewrite Nat.div_small by lia; lia|]. apply Nat.div_le_upper_bound; [lia|]. nia. }
    assert (Hmay : forall k, (k <= m)%nat -> b_may M strict c k = true).
    { intros k Hk. unfold b_may. destruct M as [M0|] eqn:EM; [|reflexivity]. unfold b_rem in ER. cbv zeta in ER.
      assert (HM0 : 0 < M0) by (destruct K; [destruct HK; lia | contradiction]).
      pose proof (N.mod_lt c M0 ltac:(lia)) as HU.
      apply orb_true_iff. right. apply N.ltb_lt. destruct (N.ltb_spec (M0 - 1 - c mod M0) (2 ^ usz)) as [Hr|Hr]; [apply N.ltb_ge in ER; lia|].
      assert (N.of_nat k < 2 ^ usz) by lia. lia. }
    assert (Hmb : (m = L / bs)%nat \/ (m = L / bs + 1 /\ L mod bs <> 0)%nat).
    { rewrite <- Hb. destruct (Nat.eqb_spec (L mod bs) 0); [left|right]; auto. }
    pose proof (Nat.div_mod L bs ltac:(lia)) as D. pose proof (Nat.mod_upper_bound L bs ltac:(lia)) as U.
    rewrite ks_xor_eq. fold L.
    destruct (Nat.ltb_spec bs L) as [HL|HL].
    - destruct (Hgen st c (L / bs) HR (Hmay _ ltac:(destruct Hmb as [Hmb|[Hmb _]]; rewrite Hmb; auto with arith))) as (st1 & E1 & HR1). rewrite E1. cbn [bind].
      rewrite (Nat.mul_comm (L / bs) bs). remember (L / bs)%nat as Q eqn:EQ in *. remember (L mod bs)%nat as R eqn:ER' in *.
      assert (Hq : (bs * Q + R = L)%nat) by (symmetry; exact D).
      rewrite skipn_length. fold L.
      assert (Hsplit : forall tailk, tailk = ks_range ks (N.of_nat bs * (c + N.of_nat Q)) R ->
        xorb_list d (ks_range ks (N.of_nat bs * c) L) = xorb_list (firstn (bs * Q) d) (ks_range ks (N.of_nat bs * c) (bs * Q)) ++ xorb_list (skipn (bs * Q) d) tailk).
      { intros tk ->. rewrite <- Hq at 1. rewrite <- (firstn_skipn (bs * Q) d) at 1. rewrite ks_range_app, xorb_app.
        - replace (N.of_nat bs * c + N.of_nat (bs * Q)) with (N.of_nat bs * (c + N.of_nat Q)) by lia. reflexivity.
        - rewrite firstn_length, ks_range_length. fold L. lia. }
      destruct (Nat.eqb_spec (L - bs * Q) 0) as [E0|E0].
      + assert (R0 : R = 0%nat) by lia. rewrite (Hsplit [] ltac:(rewrite R0; reflexivity)).
        rewrite (skipn_all2 d) by (fold L; lia). cbn [xorb_list]. rewrite app_nil_r. reflexivity.
      + destruct Hmb as [Hmb|[Hmb _]].
        { exfalso. rewrite Hmb in Hb. destruct (Nat.eqb_spec R 0); lia. }
        assert (Hm1 : b_may M strict (c + N.of_nat Q) 1 = true).
        { pose proof (Hmay m ltac:(lia)) as HM. clear - HM Hmb HK. unfold b_may in *. destruct M as [M0|]; [|reflexivity].
          assert (HM0 : 0 < M0) by (destruct K; [destruct HK; lia | contradiction]).
          apply orb_true_iff in HM. apply orb_true_iff. destruct HM as [HM|HM]; [left; exact HM|right]. apply N.ltb_lt in HM. apply N.ltb_lt.
          rewrite Hmb in HM. rewrite <- N.add_mod_idemp_l by lia. rewrite N.mod_small by lia. lia. }
        rewrite (Hone st1 _ HR1). destruct (Hgen st1 _ 1%nat HR1 Hm1) as (st2 & E2 & _). rewrite E2. cbn [bind]. do 2 f_equal.
        rewrite (Hsplit _ eq_refl). f_equal. rewrite Nat.mul_1_r.
        assert (HT : length (skipn (bs * Q) d) = R) by (rewrite skipn_length; fold L; lia).
        replace (L - bs * Q)%nat with R by lia. rewrite <- HT. apply tail_block. rewrite HT. lia.
    - cbn [bind]. fold L. destruct (Nat.eqb_spec L 0) as [E0|E0].
      + destruct d; [reflexivity|discriminate].
      + rewrite (Hone st _ HR). assert (Hm1 : (1 <= m)%nat) by (unfold m; apply Nat.div_le_lower_bound; lia).
        destruct (Hgen st c 1%nat HR (Hmay 1%nat Hm1)) as (st2 & E2 & _). rewrite E2. cbn [bind app]. do 2 f_equal.
        rewrite Nat.mul_1_r. unfold L. apply tail_block. exact HL.
  Qed.
  Lemma core_all st h last ho : Rep st 0 -> Forall (bop_ok bs M) h ->
    match last with None => True | Some d => N.of_nat (length d) < 2 ^ usz end -> Forall (op_fits usz) ho ->
    brun_core C one K (Ok st) h last = b_all ks bs M usz strict h last
    /\ bmix_core C one K (Ok st) h ho = m_all ks bs M usz strict h ho.
  Proof.
    intros HR Hh Hl Hho. unfold brun_core, bmix_core, b_all, m_all. cbn [bind]. pose proof (brun_ok h st 0 HR Hh) as H.
    destruct (b_run ks bs M usz strict 0 h) as [[rs c]|]; [|rewrite H; split; reflexivity].
    destruct H as (st' & E & HR'). rewrite E. cbn [bind]. split.
    { destruct last as [d|]; [|reflexivity]. rewrite (partial_ok st' c d HR' Hl). reflexivity. }
    assert (HS : forall c a b, b_may M strict c (a + b) = true -> b_may M strict c a = true /\ b_may M strict (c + N.of_nat a) b = true).
    { clear - HK. intros c a b H. unfold b_may in *. destruct M as [M0|]; [|auto].
      assert (HM0 : 0 < M0) by (destruct K; [destruct HK; lia | contradiction]).
      destruct strict; [|auto]. cbn [negb orb] in *. apply N.ltb_lt in H. split; apply N.ltb_lt; [lia|].
      rewrite <- N.add_mod_idemp_l by lia. rewrite N.mod_small by lia. lia. }
    pose proof (WRep_new C ks Rep (fun c k => b_may M strict c k = true) Hbs Hgen HS st' c HR') as HW. fold bs in HW.
    destruct K as [K0|], M as [M0|]; try contradiction.
    - destruct HK as ((H64 & HKM & HM1) & Hg & Hs). cbn [option_map]. subst M0.
      pose proof (run_seekable C ks Rep (fun c k => b_may (Some (sk_mod K0)) strict c k = true) Hbs Hgen HS K0 usz strict H64 HM1 Hg Hs Hrem) as R.
      assert (H1 : forall c k, c mod sk_mod K0 + N.of_nat k < sk_mod K0 -> b_may (Some (sk_mod K0)) strict c k = true)
        by (intros c0 k Hc; unfold b_may; apply orb_true_iff; right; apply N.ltb_lt; exact Hc).
      assert (H2 : strict = false -> forall c k, b_may (Some (sk_mod K0)) strict c k = true) by (intros -> ? ?; reflexivity).
      assert (H3 : strict = true -> forall st, Rep st (sk_mod K0 - 1) -> sc_gen C 1 st = Panic).
      { intros Es st0 HR0. apply (Hpanic _ _ _ HR0). unfold b_may. rewrite Es. cbn [negb orb]. apply N.ltb_ge.
        rewrite N.mod_small by lia. lia. }
      specialize (R H1 H2 H3 ho _ _ _ HW).
      assert (Hst : strict_ok K0 strict (N.of_nat bs * c)).
      { intros _. fold bs in H64. rewrite H64. change (N.of_nat 64) with 64.
        pose proof (N.mod_lt c (sk_mod K0) ltac:(lia)). rewrite N.mul_mod_distr_l by lia. nia. }
      specialize (R Hst Hho).
      destruct (run_spec ks (Some {| l_bs := 64; l_blocks := sk_mod K0 |}) strict (N.of_nat bs * c) ho) as [[rs' P']|]; [|rewrite R; reflexivity].
      destruct R as (w' & c' & E' & _). rewrite E'. reflexivity.
    - destruct HK as (Hst & Hnone). cbn [option_map]. rewrite Hst.
      destruct (run_unlimited C ks Rep (fun c k => b_may None strict c k = true) Hbs Hgen HS Hnone (fun _ _ => eq_refl) ho _ _ _ HW) as (rs' & P' & w' & c' & E1 & E2 & _).
      rewrite E1, E2. reflexivity.
  Qed.
End Any.

(** ** The cores of the crates *)
Lemma one_produces : produces (fun _ => [One]) 1.
Proof. intros P HP. split; reflexivity. Qed.
Lemma b_may_lax M c k : b_may M false c k = true.
Proof. destruct M; reflexivity. Qed.

Lemma chacha_block e v n key iv blk h last ho :
  length key = 32%nat -> length iv = nonce_len v -> bytes key -> bytes iv ->
  (forall c k, blocks_from v n k (mk_state v key iv c) = flat_map (fun i => blk (c + N.of_nat i)) (seq 0 k)) ->
  Forall (bop_ok 64 (Some (ctr_mod v))) h -> match last with None => True | Some d => N.of_nat (length d) < 2 ^ e_usz e end -> Forall (call_ok e) ho ->
  brun_core (chacha_score e v n) (chacha_one e v n) (Some (chacha_seek v)) (Ok (mk_state v key iv 0)) h last
  = b_all (ks_of_blocks 64 blk) 64 (Some (ctr_mod v)) (e_usz e) false h last
  /\ bmix_core (chacha_score e v n) (chacha_one e v n) (Some (chacha_seek v)) (Ok (mk_state v key iv 0)) h ho
  = m_all (ks_of_blocks 64 blk) 64 (Some (ctr_mod v)) (e_usz e) false h ho.
Proof.
  intros Hk Hi Bk Bi Hb Hh Hl Hho.
  assert (Hwf : forall c, wf16 (mk_state v key iv c)) by (intros; apply mk_state_wf; assumption).
  assert (Hlen : forall i, length (blk i) = 64%nat).
  { intros i. pose proof (blocks_from_length v n 1 _ (Hwf i)) as H. rewrite Hb in H.
    cbn [seq flat_map] in H. rewrite app_nil_r in H. change (N.of_nat 0) with 0 in H. rewrite N.add_0_r in H. exact H. }
  apply (core_all (chacha_score e v n) (chacha_one e v n) (Some (chacha_seek v)) (ks_of_blocks 64 blk)
    (fun st c => st = mk_state v key iv c) (Some (ctr_mod v)) (e_usz e) false); try assumption; try reflexivity.
  - cbn. lia.
  - intros st c k -> _. cbn [sc_gen sc_bs chacha_score]. rewrite core_write_ok by apply Hwf. rewrite Hb.
    eexists. split; [|apply adv_mk_state; exact Hk].
    f_equal. f_equal. apply (ks_of_blocks_range 64); [lia | exact Hlen].
  - intros st c k _ H. rewrite b_may_lax in H. discriminate.
  - intros st c ->. cbn [sc_gen chacha_score]. unfold chacha_one. rewrite core_write_ok by apply Hwf.
    apply process_ok; [apply Hwf | apply one_produces].
  - split; [split; [reflexivity|]; split; [reflexivity|]; destruct v; reflexivity|]. split.
    + intros st c ->. apply get_pos_mk. exact Hk.
    + intros st c b -> Hb'. apply set_pos_mk; assumption.
  - intros st c ->. cbn [sc_rem chacha_score]. rewrite get_pos_mk by exact Hk. destruct v; reflexivity.
Qed.
Lemma salsa_block e n key iv h last ho :
  length key = 32%nat -> length iv = 8%nat -> bytes key -> bytes iv ->
  Forall (bop_ok 64 (Some M64)) h -> match last with None => True | Some d => N.of_nat (length d) < 2 ^ e_usz e end -> Forall (call_ok e) ho ->
  brun_core (salsa_score e n) (salsa_gen_ks_block (e_ck e) n) (Some salsa_seek) (Ok (s_state key iv 0)) h last
  = b_all (ks_of_blocks 64 (ss_block n key iv)) 64 (Some M64) (e_usz e) (e_ck e) h last
  /\ bmix_core (salsa_score e n) (salsa_gen_ks_block (e_ck e) n) (Some salsa_seek) (Ok (s_state key iv 0)) h ho
  = m_all (ks_of_blocks 64 (ss_block n key iv)) 64 (Some M64) (e_usz e) (e_ck e) h ho.
Proof.
  intros Hk Hi Bk Bi Hh Hl Hho.
  apply (core_all (salsa_score e n) (salsa_gen_ks_block (e_ck e) n) (Some salsa_seek) (ks_of_blocks 64 (ss_block n key iv))
    (fun st c => st = s_state key iv c) (Some M64) (e_usz e) (e_ck e)); try assumption; try reflexivity.
  - cbn. lia.
  - intros st c k -> Hs. cbn [sc_gen sc_bs salsa_score]. unfold b_may in Hs.
    rewrite salsa_write_ok; [|apply s_state_wf; assumption |
      rewrite s_ctr_state by assumption; intros E; rewrite E in Hs; apply N.ltb_lt; exact Hs].
    rewrite s_blocks_spec by assumption. eexists. split; [|apply s_adv_state; assumption].
    f_equal. f_equal. apply (ks_of_blocks_range 64); [lia|]. intros i. apply ss_block_length; assumption.
  - intros st c k -> Hs. cbn [sc_gen sc_bs salsa_score]. unfold b_may in Hs. apply orb_false_iff in Hs. destruct Hs as [E Hs].
    destruct (e_ck e); [|discriminate]. apply N.ltb_ge in Hs. apply salsa_write_panic; [apply s_state_wf; assumption|].
    rewrite s_ctr_state by assumption. exact Hs.
  - intros st c ->. cbn [sc_gen salsa_score salsa_write]. destruct (salsa_gen_ks_block (e_ck e) n (s_state key iv c)) as [[o st']|]; cbn [bind]; [|reflexivity].
    rewrite app_nil_r. reflexivity.
  - split; [split; [reflexivity|]; split; reflexivity|]. split.
    + intros st c ->. apply s_get_state; assumption.
    + intros st c b -> Hb'. apply s_set_state; assumption.
  - intros st c ->. cbn [sc_rem salsa_score]. unfold salsa_remaining. rewrite s_get_state by assumption. reflexivity.
Qed.
Lemma rabbit_block e s h last ho blk : rwf s ->
  (forall i, blk i = rb_octets 16 (rb_block (to_spec s) i)) ->
  Forall (bop_ok 16 None) h -> match last with None => True | Some d => N.of_nat (length d) < 2 ^ e_usz e end -> Forall (call_ok e) ho ->
  brun_core (rabbit_score e) (next_block (e_ck e)) None (Ok s) h last
  = b_all (ks_of_blocks 16 (fun i => blk (N.to_nat i))) 16 None (e_usz e) false h last
  /\ bmix_core (rabbit_score e) (next_block (e_ck e)) None (Ok s) h ho
  = m_all (ks_of_blocks 16 (fun i => blk (N.to_nat i))) 16 None (e_usz e) false h ho.
Proof.
  intros Hwf Hblk Hh Hl Hho.
  set (ks := ks_of_blocks 16 (fun i => blk (N.to_nat i))).
  assert (Hlen : forall i, length (blk (N.to_nat i)) = 16%nat).
  { intros i. rewrite Hblk, rb_octets_le. apply to_le_length. }
  apply (core_all (rabbit_score e) (next_block (e_ck e)) None ks
    (fun s' c => rwf s' /\ to_spec s' = Nat.iter (N.to_nat c) rb_next (to_spec s)) None (e_usz e) false); try assumption; try reflexivity.
  - cbn. lia.
  - intros st c k [Hst Est] _. cbn [sc_gen sc_bs rabbit_score].
    destruct (rabbit_write_ok (e_ck e) k st Hst) as (s' & E & Hs' & Es'). rewrite E. exists s'. split.
    + f_equal. f_equal. unfold ks. rewrite <- (ks_of_blocks_range 16) by (try lia; exact Hlen).
      apply flat_map_ext. intros i. rewrite Hblk. f_equal. unfold rb_block. f_equal. rewrite Est.
      replace (N.to_nat (c + N.of_nat i)) with (N.to_nat c + i)%nat by lia. generalize (N.to_nat c) as m. intros m.
      replace (S (m + i))%nat with (S i + m)%nat by lia. rewrite niter_add. reflexivity.
    + split; [exact Hs'|]. rewrite Es', Est. replace (N.to_nat (c + N.of_nat k)) with (k + N.to_nat c)%nat by lia.
      rewrite niter_add. reflexivity.
  - intros st c k _ H. discriminate.
  - intros st c _. cbn [sc_gen rabbit_score rabbit_write]. destruct (next_block (e_ck e) st) as [[o st']|]; cbn [bind]; [|reflexivity].
    rewrite app_nil_r. reflexivity.
  - split; reflexivity.
  - split; [exact Hwf | reflexivity].
Qed.
Lemma hc_block e key iv s h last ho : env_ok e -> hrel s (hc_run (hc_init key iv) 0) 0 ->
  Forall (bop_ok 4 None) h -> match last with None => True | Some d => N.of_nat (length d) < 2 ^ e_usz e end -> Forall (call_ok e) ho ->
  brun_core (hc_score e) (hc_one e) None (Ok s) h last
  = b_all (ks_of_blocks 4 (fun i => rb_octets 4 (hc_word key iv (N.to_nat i)))) 4 None (e_usz e) false h last
  /\ bmix_core (hc_score e) (hc_one e) None (Ok s) h ho
  = m_all (ks_of_blocks 4 (fun i => rb_octets 4 (hc_word key iv (N.to_nat i)))) 4 None (e_usz e) false h ho.
Proof.
  intros He H0 Hh Hl Hho.
  assert (Hu : usize_ok (2 ^ e_usz e)).
  { unfold usize_ok. destruct He as [-> | [-> | ->]]; [left | right; left | right; right]; reflexivity. }
  set (blk := fun i => rb_octets 4 (hc_word key iv (N.to_nat i))). set (ks := ks_of_blocks 4 blk).
  assert (Hlen : forall i, length (blk i) = 4%nat) by (intros i; unfold blk; rewrite rb_octets_le; apply to_le_length).
  apply (core_all (hc_score e) (hc_one e) None ks
    (fun s' c => hrel s' (hc_run (hc_init key iv) (N.to_nat c)) c) None (e_usz e) false); try assumption; try reflexivity.
  - cbn. lia.
  - intros st c k Hst _. cbn [sc_gen sc_bs hc_score]. rewrite <- (N2Nat.id c) in Hst at 2.
    destruct (hc_write_ok (e_ck e) (2 ^ e_usz e) k (hc_init key iv) Hu (N.to_nat c) st Hst) as (s' & E & Hs').
    rewrite E. exists s'. split.
    + f_equal. f_equal. unfold ks. change 4 with (N.of_nat 4). rewrite <- (ks_of_blocks_range 4) by (try lia; exact Hlen).
      rewrite <- (Nat.add_0_r (N.to_nat c)) at 1. rewrite !flat_map_concat_map. f_equal.
      replace (seq (N.to_nat c + 0) k) with (map (fun i => N.to_nat c + i)%nat (seq 0 k)).
      * rewrite map_map. apply map_ext. intros i. unfold blk. rewrite rb_octets_le.
        replace (N.to_nat (c + N.of_nat i)) with (N.to_nat c + i)%nat by lia. reflexivity.
      * clear. generalize 0%nat as a. induction k as [|k IH]; intros a; cbn [seq map]; [reflexivity|].
        rewrite IH. rewrite Nat.add_succ_r. reflexivity.
    + replace (N.to_nat (c + N.of_nat k)) with (N.to_nat c + k)%nat by lia.
      replace (c + N.of_nat k) with (N.of_nat (N.to_nat c + k)) by lia. exact Hs'.
  - intros st c k _ H. discriminate.
  - split; reflexivity.
Qed.

(** ** C70 *)
(** Block sizes and counter ranges, from the formats' descriptions. *)
Definition block_bytes (c : cipher) : nat :=
  match c with
  | CChaCha _ _ _ _ | CXChaCha _ _ _ | CSalsa _ _ _ | CXSalsa _ _ _ => 64
  | CRabbit _ _ | CRabbitKeyOnly _ => 16
  | CHc256 _ _ => 4
  | CRc4 _ => 1
  end.
Definition counters (c : cipher) : option N :=
  match c with
  | CChaCha Ietf _ _ _ | CXChaCha _ _ _ => Some (2 ^ 32)
  | CChaCha Legacy _ _ _ | CSalsa _ _ _ | CXSalsa _ _ _ => Some (2 ^ 64)
  | _ => None
  end.
Definition has_core (c : cipher) : Prop := match c with CRc4 _ => False | _ => True end.
Definition last_ok (e : env) (last : option (list N)) : Prop :=
  match last with None => True | Some d => N.of_nat (length d) < 2 ^ e_usz e end.

Lemma block_mixed e c h last ho : env_ok e -> cipher_ok c -> has_core c -> Forall (bop_ok (block_bytes c) (counters c)) h -> last_ok e last -> Forall (call_ok e) ho ->
  block_run e c h last = b_all (cipher_ks c) (block_bytes c) (counters c) (e_usz e) (cipher_strict e c) h last
  /\ mixed_run e c h ho = m_all (cipher_ks c) (block_bytes c) (counters c) (e_usz e) (cipher_strict e c) h ho.
Proof.
  intros He Hc Hk Hh Hl Hho.
  destruct c as [v n key iv | n key iv | n key iv | n key iv | key iv | key | key iv | key]; cbn [block_run mixed_run block_bytes counters cipher_strict cipher_ok] in *.
  - assert (Hc' : octets 32 key /\ octets (nonce_len v) iv) by (destruct v; exact Hc). clear Hk.
    destruct Hc' as [[Hk Bk] [Hi Bi]]. rewrite new_internal_ok by assumption.
    assert (HM : match v with Ietf => Some (2 ^ 32) | Legacy => Some (2 ^ 64) end = Some (ctr_mod v)) by (destruct v; reflexivity).
    rewrite HM in *.
    pose proof (chacha_block e v n key iv (fun i => spec_block v n key i iv) h last ho Hk Hi Bk Bi) as R.
    specialize (R ltac:(intros; apply blocks_from_spec; assumption) Hh Hl Hho). destruct v; exact R.
  - clear Hk. destruct Hc as [[Hk Bk] [Hi Bi]]. rewrite xchacha_new_ok by assumption.
    assert (H16 : length (firstn 16 iv) = 16%nat) by (rewrite firstn_length, Hi; reflexivity).
    assert (Hx : length (xnonce iv) = 12%nat) by (unfold xnonce; rewrite app_length, repeat_length, skipn_length, Hi; reflexivity).
    apply (chacha_block e Ietf n _ _ (fun i => sp_xchacha_block n key i iv)); try assumption.
    + apply hchacha_length; auto using bytes_firstn.
    + apply hchacha_bytes; assumption.
    + unfold xnonce. apply Forall_app. split; [repeat constructor | apply bytes_skipn; exact Bi].
    + intros. apply xchacha_blocks; assumption.
  - clear Hk. destruct Hc as [[Hk Bk] [Hi Bi]]. rewrite salsa_new_eq by assumption. apply salsa_block; assumption.
  - clear Hk. destruct Hc as [[Hk Bk] [Hi Bi]]. rewrite xsalsa_new_eq by assumption.
    assert (H16 : length (firstn 16 iv) = 16%nat) by (rewrite firstn_length, Hi; reflexivity).
    assert (H8 : length (skipn 16 iv) = 8%nat) by (rewrite skipn_length, Hi; reflexivity).
    assert (Hks : cipher_ks (CXSalsa n key iv) = ks_of_blocks 64 (ss_block n (hsalsa n key (firstn 16 iv)) (skipn 16 iv)))
      by (rewrite hsalsa_spec by auto using bytes_firstn; reflexivity).
    rewrite Hks. apply salsa_block; try assumption.
    + apply hsalsa_length; assumption.
    + apply hsalsa_bytes; assumption.
    + apply bytes_skipn. exact Bi.
  - clear Hk. destruct Hc as [[Hk Bk] [Hi Bi]]. destruct (setup_key_ok (e_ck e) key Hk Bk) as (s0 & E0 & Hwf0 & Es0).
    destruct (setup_iv_ok (e_ck e) iv s0 Hi Bi Hwf0) as (s & E & Hwf & Es).
    unfold rabbit_new, rabbit_key_only. rewrite E0. cbn [bind]. rewrite E.
    apply (rabbit_block e s h last ho (rb_key_iv_block key iv) Hwf); try assumption. intros i. rewrite Es, Es0. reflexivity.
  - clear Hk. destruct Hc as [Hk Bk]. destruct (setup_key_ok (e_ck e) key Hk Bk) as (s & E & Hwf & Es).
    unfold rabbit_key_only. rewrite E.
    apply (rabbit_block e s h last ho (rb_key_block key) Hwf); try assumption. intros i. rewrite Es. reflexivity.
  - clear Hk. destruct Hc as [[Hk Bk] [Hi Bi]].
    assert (Hu : usize_ok (2 ^ e_usz e)).
    { unfold usize_ok. destruct He as [-> | [-> | ->]]; [left | right; left | right; right]; reflexivity. }
    destruct (hc_new_ok key iv Hk Bk Hi Bi (e_ck e) _ Hu) as (s & E & H). rewrite E. apply hc_block; assumption.
  - contradiction.
Qed.
Theorem C70_block e c h last : env_ok e -> cipher_ok c -> has_core c -> Forall (bop_ok (block_bytes c) (counters c)) h -> last_ok e last ->
  block_run e c h last = b_all (cipher_ks c) (block_bytes c) (counters c) (e_usz e) (cipher_strict e c) h last.
Proof. intros He Hc Hk Hh Hl. exact (proj1 (block_mixed e c h last [] He Hc Hk Hh Hl (Forall_nil _))). Qed.
Print Assumptions C70_block.
(** A cipher made from a used core continues at the core's block: any history of block-level
    calls, [from_core], and any history of byte-level calls. *)
Theorem C70_from_core e c h ho : env_ok e -> cipher_ok c -> has_core c -> Forall (bop_ok (block_bytes c) (counters c)) h -> Forall (call_ok e) ho ->
  mixed_run e c h ho = m_all (cipher_ks c) (block_bytes c) (counters c) (e_usz e) (cipher_strict e c) h ho.
Proof. intros He Hc Hk Hh Hl. exact (proj2 (block_mixed e c h None ho He Hc Hk Hh I Hl)). Qed.
Print Assumptions C70_from_core.

(** A consuming call on a new core is [try_apply_keystream] on a new cipher: same answer,
    same bytes, and no panic in any build. *)
Theorem C70_partial_apply e c d : env_ok e -> cipher_ok c -> has_core c -> N.of_nat (length d) < 2 ^ e_usz e ->
  exists r, block_run e c [] (Some d) = Ok ([], Some r)
         /\ cipher_run e c [Apply d] = Ok [match r with Some out => Bytes out | None => Err end].
Proof.
  intros He Hc Hk Hd. rewrite C70_block by (try assumption; constructor). unfold b_all. cbn [b_run].
  eexists. split; [reflexivity|]. rewrite cipher_run_ok by (try assumption; repeat constructor; exact Hd).
  unfold expect. cbn [run_spec step_spec]. unfold b_partial. rewrite N.mul_0_r.
  assert (HG : match counters c with
    | None => cipher_lim c = None
    | Some M => 0 < M /\ cipher_lim c = Some {| l_bs := N.of_nat (block_bytes c); l_blocks := M |}
    end) by (destruct c as [[]|  | | | | | | ]; cbn; auto; split; reflexivity).
  assert (Hbs : (0 < block_bytes c)%nat) by (destruct c; cbn; lia).
  destruct (counters c) as [M|]; cbn [b_rem]; [|rewrite HG; reflexivity].
  destruct HG as [HM HL]. rewrite HL.
  assert (EQ : granted {| l_bs := N.of_nat (block_bytes c); l_blocks := M |} 0 (N.of_nat (length d))
    = negb match (let r := M - 1 - 0 mod M in if r <? 2 ^ e_usz e then Some r else None) with Some r => r <? N.of_nat ((length d + block_bytes c - 1) / block_bytes c) | None => false end).
  { unfold granted, l_period, l_usable. cbn [l_bs l_blocks]. cbv zeta. set (bs := block_bytes c) in *. set (L := length d) in *.
    rewrite N.mod_0_l by lia. rewrite N.mod_0_l by lia. destruct (N.leb_spec 0 (N.of_nat bs * (M - 1))) as [_|]; [|lia]. rewrite N.add_0_l, N.sub_0_r.
    set (m := ((L + bs - 1) / bs)%nat).
    pose proof (Nat.div_mod (L + bs - 1) bs ltac:(lia)) as D. pose proof (Nat.mod_upper_bound (L + bs - 1) bs ltac:(lia)) as U. fold m in D.
    set (R := ((L + bs - 1) mod bs)%nat) in *.
    destruct (N.ltb_spec (M - 1) (2 ^ e_usz e)) as [Hr|Hr].
    - destruct (N.ltb_spec (M - 1) (N.of_nat m)) as [Hm|Hm]; cbn [negb]; [apply N.leb_gt | apply N.leb_le]; nia.
    - cbn [negb]. apply N.leb_le. nia. }
  rewrite EQ. destruct (match _ with Some r => _ | None => false end); cbn [negb]; reflexivity.
Qed.
Print Assumptions C70_partial_apply.

(** Asking for blocks one at a time or together gives the same bytes, which are those of
    the byte-level cipher. *)
Lemma b_run_ones ks bs M usz strict k : forall b,
  (forall j, (j < k)%nat -> b_may M strict (b + N.of_nat j) 1 = true) ->
  b_run ks bs M usz strict b (repeat BWrite1 k)
  = Some (map BBytes (map (fun i => ks_range ks (N.of_nat bs * (b + N.of_nat i)) bs) (seq 0 k)), b + N.of_nat k).
Proof.
  induction k as [|k IH]; intros b H; [cbn; rewrite N.add_0_r; reflexivity|]. cbn [repeat b_run b_step]. cbv zeta.
  pose proof (H 0%nat ltac:(lia)) as H0. change (N.of_nat 0) with 0 in H0. rewrite N.add_0_r in H0. rewrite H0.
  rewrite IH.
  - cbn [seq map]. rewrite <- seq_shift, !map_map. change (N.of_nat 0) with 0. rewrite N.add_0_r. apply f_equal, f_equal2; [|lia]. apply f_equal.
    apply map_ext. intros i. apply f_equal. apply (f_equal (fun p => ks_range ks p bs)). lia.
  - intros j Hj. replace (b + N.of_nat 1 + N.of_nat j) with (b + N.of_nat (S j)) by lia. apply H. lia.
Qed.
Lemma concat_ranges ks bs k : forall b,
  concat (map (fun i => ks_range ks (N.of_nat bs * (b + N.of_nat i)) bs) (seq 0 k)) = ks_range ks (N.of_nat bs * b) (bs * k).
Proof.
  induction k as [|k IH]; intros b; [rewrite Nat.mul_0_r; reflexivity|]. cbn [seq map concat]. rewrite <- seq_shift, map_map.
  replace (bs * S k)%nat with (bs + bs * k)%nat by lia. rewrite ks_range_app. f_equal.
  - f_equal. lia.
  - replace (N.of_nat bs * b + N.of_nat bs) with (N.of_nat bs * (b + 1)) by lia. rewrite <- IH. f_equal. apply map_ext. intros i. f_equal. lia.
Qed.
Theorem C70_one_many e c k : env_ok e -> cipher_ok c -> has_core c -> (cipher_strict e c = true -> N.of_nat k < 2 ^ 64) ->
  exists blocks, length blocks = k /\ Forall (fun b => length b = block_bytes c) blocks
    /\ block_run e c (repeat BWrite1 k) None = Ok (map BBytes blocks, None)
    /\ block_run e c [BWrite k] None = Ok ([BBytes (concat blocks)], None)
    /\ (N.of_nat (block_bytes c * k) < 2 ^ e_usz e -> (forall M, counters c = Some M -> N.of_nat k < M) ->
        cipher_run e c [Write (block_bytes c * k)] = Ok [Bytes (concat blocks)]).
Proof.
  intros He Hc Hk Hs.
  exists (map (fun i => ks_range (cipher_ks c) (N.of_nat (block_bytes c) * (0 + N.of_nat i)) (block_bytes c)) (seq 0 k)).
  assert (Hmay : forall b n, (b + n <= k)%nat -> b_may (counters c) (cipher_strict e c) (N.of_nat b) n = true).
  { intros b n Hb. unfold b_may. destruct (counters c) as [M|] eqn:EM; [|reflexivity]. destruct (cipher_strict e c) eqn:ES; [|reflexivity].
    specialize (Hs eq_refl). assert (M = 2 ^ 64) by (destruct c as [[]| | | | | | | ]; cbn in ES, EM; try discriminate; injection EM as <-; reflexivity). subst M.
    apply N.ltb_lt. change (2 ^ 64) with M64 in *. rewrite N.mod_small by lia. lia. }
  split; [rewrite map_length, seq_length; reflexivity|]. split; [apply Forall_forall; intros x Hx; apply in_map_iff in Hx; destruct Hx as (i & <- & _); apply ks_range_length|].
  split; [|split].
  - rewrite C70_block; try assumption; [|apply Forall_forall; intros x Hx; apply repeat_spec in Hx; subst x; exact I | exact I].
    unfold b_all. rewrite b_run_ones; [reflexivity|]. intros j Hj. rewrite N.add_0_l. apply Hmay. lia.
  - rewrite C70_block; try assumption; [|constructor; [exact I | constructor] | exact I].
    unfold b_all. cbn [b_run b_step]. cbv zeta. change 0 with (N.of_nat 0) at 1. rewrite Hmay by lia. rewrite concat_ranges. reflexivity.
  - intros Hu HM. rewrite cipher_run_ok by (try assumption; repeat constructor; exact Hu). rewrite concat_ranges, N.mul_0_r.
    unfold expect. cbn [run_spec step_spec].
    destruct (cipher_lim c) as [l|] eqn:EL; [|reflexivity].
    assert (HG : granted l 0 (N.of_nat (block_bytes c * k)) = true).
    { assert (E : l_bs l = N.of_nat (block_bytes c) /\ counters c = Some (l_blocks l) /\ 0 < l_blocks l /\ 0 < l_bs l)
        by (destruct c as [[]| | | | | | | ]; cbn in EL; try discriminate; injection EL as <-; repeat split; reflexivity).
      destruct E as (E1 & E2 & E3 & E4). specialize (HM _ E2). unfold granted, l_period, l_usable. cbv zeta. rewrite N.mod_0_l by nia.
      destruct (N.leb_spec 0 (l_bs l * (l_blocks l - 1))) as [_|]; [|lia]. apply N.leb_le. rewrite E1. nia. }
    rewrite HG. reflexivity.
Qed.
Print Assumptions C70_one_many.

(** The block level has no guard: at the last counter value [remaining_blocks] says 0, and two
    blocks are produced all the same, the second of which is block 0 again.  With overflow
    checks Salsa panics instead. *)
Theorem C70_unguarded e c M : env_ok e -> cipher_ok c -> counters c = Some M ->
  exists a b, length a = 64%nat /\ length b = 64%nat
    /\ block_run e c [BWrite1; BSetPos (M - 1); BRemaining; BWrite 2; BGetPos] None
       = if cipher_strict e c then Panic else Ok ([BBytes b; BDone; BCount (Some 0); BBytes (a ++ b); BPos 1], None).
Proof.
  intros He Hc HM.
  assert (Hk : has_core c) by (destruct c; cbn in HM; try discriminate; exact I).
  assert (Hb : block_bytes c = 64%nat) by (destruct c; cbn in HM; try discriminate; reflexivity).
  assert (EL : cipher_lim c = Some {| l_bs := 64; l_blocks := M |}) by (destruct c as [[]| | | | | | | ]; cbn in HM; try discriminate; injection HM as <-; reflexivity).
  assert (H2 : 2 <= M) by (destruct c as [[]| | | | | | | ]; cbn in HM; try discriminate; injection HM as <-; vm_compute; discriminate).
  exists (ks_range (cipher_ks c) (64 * (M - 1)) 64), (ks_range (cipher_ks c) 0 64).
  split; [apply ks_range_length|]. split; [apply ks_range_length|].
  assert (E : ks_range (cipher_ks c) (64 * (M - 1)) 128 = ks_range (cipher_ks c) (64 * (M - 1)) 64 ++ ks_range (cipher_ks c) 0 64).
  { change 128%nat with (64 + 64)%nat. rewrite ks_range_app. f_equal. unfold ks_range. apply map_ext. intros i.
    rewrite <- (ks_period c _ (0 + N.of_nat i) EL). f_equal. cbn [l_blocks]. lia. }
  rewrite C70_block; try assumption.
  2: { rewrite HM. repeat (apply Forall_cons; [cbn [bop_ok]; try exact I; lia|]). constructor. }
  2: exact I.
  rewrite HM, Hb. unfold b_all. cbn [b_run b_step b_rem b_may]. cbv zeta.
  change (N.of_nat 64) with 64. change (N.of_nat 1) with 1. change (N.of_nat 2) with 2. change (64 * 2)%nat with 128%nat. rewrite N.mul_0_r, E.
  rewrite N.mod_0_l by lia. rewrite (N.mod_small (M - 1)) by lia.
  assert (EM : (M - 1 + 2) mod M = 1) by (replace (M - 1 + 2) with (1 + 1 * M) by lia; rewrite N.mod_add by lia; apply N.mod_small; lia).
  rewrite N.sub_diag. assert (0 < 2 ^ e_usz e) by (apply N.neq_0_lt_0, N.pow_nonzero; discriminate).
  destruct (N.ltb_spec 0 (2 ^ e_usz e)) as [_|]; [|lia].
  destruct (N.ltb_spec (0 + 1) M) as [_|]; [|lia]. rewrite orb_true_r.
  destruct (N.ltb_spec (M - 1 + 2) M) as [|_]; [lia|]. rewrite orb_false_r.
  destruct (cipher_strict e c); cbn [negb]; [reflexivity|]. rewrite EM. reflexivity.
Qed.
Print Assumptions C70_unguarded.

Example C70_satisfiable :
  let e := {| e_cfg := {| c_backend := NoCfg; c_target := X86; c_avx512 := true |}; e_cpu := {| has_avx512 := true; has_avx2 := true; has_sse2 := true |}; e_ck := true; e_usz := 64 |} in
  let c := CXSalsa 10 (repeat 7 32) (repeat 9 24) in
  env_ok e /\ cipher_ok c /\ has_core c /\ counters c = Some (2 ^ 64) /\ cipher_strict e c = true
  /\ Forall (bop_ok (block_bytes c) (counters c)) [BWrite 3; BApply (repeat 0 128); BApply1 (repeat 1 64); BSetPos (2 ^ 64 - 1); BGetPos]
  /\ last_ok e (Some (repeat 1 100)).
Proof.
  cbv zeta. split; [right; right; reflexivity|]. split; [split; split; try reflexivity; apply Forall_forall; intros x Hx; apply repeat_spec in Hx; subst x; reflexivity|].
  split; [exact I|]. split; [reflexivity|]. split; [reflexivity|]. split; [|reflexivity].
  repeat (apply Forall_cons; [cbn [bop_ok block_bytes counters]; try exact I; reflexivity|]). constructor.
Qed.
