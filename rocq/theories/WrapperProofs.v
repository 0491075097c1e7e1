(** The wrapper refines the position machine of [SpecStream], for any core satisfying
    the block law. *)
From Verif Require Import Word WordLemmas Res SpecStream CipherWrapper.
From Coq Require Import ZArith Lia ZifyBool ZifyNat ZifyN.

(** ** [ks_range] *)
Lemma ks_range_length ks p n : length (ks_range ks p n) = n.
Proof. unfold ks_range. rewrite map_length, seq_length. reflexivity. Qed.
Lemma ks_range_app ks p a b : ks_range ks p (a + b) = ks_range ks p a ++ ks_range ks (p + N.of_nat a) b.
Proof.
  unfold ks_range. rewrite seq_app, map_app. f_equal. cbn [Nat.add].
  assert (Hs : forall b s, seq (a + s) b = map (fun i => (a + i)%nat) (seq s b)).
  { clear. induction b as [|b IH]; intros s; [reflexivity|]. cbn [seq map]. f_equal. rewrite <- IH. f_equal. lia. }
  rewrite <- (Nat.add_0_r a) at 1. rewrite Hs, map_map. apply map_ext. intros i. f_equal. lia.
Qed.
Lemma ks_range_firstn ks p n m : (m <= n)%nat -> firstn m (ks_range ks p n) = ks_range ks p m.
Proof.
  intros H. replace n with (m + (n - m))%nat by lia. rewrite ks_range_app, firstn_app, ks_range_length, Nat.sub_diag.
  rewrite firstn_all2 by (rewrite ks_range_length; lia). cbn. apply app_nil_r.
Qed.
Lemma ks_range_skipn ks p n m : (m <= n)%nat -> skipn m (ks_range ks p n) = ks_range ks (p + N.of_nat m) (n - m).
Proof.
  intros H. replace n with (m + (n - m))%nat at 1 by lia. rewrite ks_range_app, skipn_app, ks_range_length, Nat.sub_diag.
  rewrite skipn_all2 by (rewrite ks_range_length; lia). reflexivity.
Qed.
Lemma ks_range_0 ks p : ks_range ks p 0 = [].
Proof. reflexivity. Qed.
Lemma xorb_list_combine a b : xorb_list a b = map (fun x => N.lxor (fst x) (snd x)) (combine a b).
Proof. revert b; induction a as [|x a IH]; intros [|y b]; cbn [xorb_list combine map fst snd]; f_equal; auto. Qed.
Lemma ks_xor_eq ks p d : ks_xor ks p d = xorb_list d (ks_range ks p (length d)).
Proof. unfold ks_xor. symmetry. apply xorb_list_combine. Qed.

(** Bytes of a keystream made of blocks. *)
Lemma nth_flat_map_blocks (bs : nat) (f : nat -> list N) : (0 < bs)%nat -> (forall i, length (f i) = bs) ->
  forall k s j, (j < bs * k)%nat -> nth j (flat_map f (seq s k)) 0 = nth (j mod bs) (f (s + j / bs)%nat) 0.
Proof.
  intros Hbs Hf. induction k as [|k IH]; intros s j Hj; [lia|]. cbn [seq flat_map].
  destruct (Nat.lt_ge_cases j bs) as [Hlt|Hge].
  - rewrite app_nth1 by (rewrite Hf; assumption). rewrite Nat.div_small, Nat.mod_small, Nat.add_0_r by assumption. reflexivity.
  - rewrite app_nth2 by (rewrite Hf; assumption). rewrite Hf, IH by lia.
    replace j with ((j - bs) + 1 * bs)%nat at 3 4 by lia.
    rewrite Nat.mod_add, Nat.div_add by lia. f_equal. f_equal. lia.
Qed.
Lemma nth_ext_len (a b : list N) : length a = length b -> (forall j, (j < length a)%nat -> nth j a 0 = nth j b 0) -> a = b.
Proof. intros Hl H. apply (nth_ext a b 0 0 Hl H). Qed.

Lemma nth_ks_range ks p n j : (j < n)%nat -> nth j (ks_range ks p n) 0 = ks (p + N.of_nat j).
Proof.
  intros H. unfold ks_range. rewrite nth_indep with (d' := ks (p + N.of_nat 0)) by (rewrite map_length, seq_length; assumption).
  rewrite (map_nth (fun i => ks (p + N.of_nat i))). rewrite seq_nth by assumption. reflexivity.
Qed.

Lemma flat_map_len (bs : nat) (f : nat -> list N) k s : (forall i, length (f i) = bs) ->
  length (flat_map f (seq s k)) = (bs * k)%nat.
Proof. intros Hf. revert s; induction k as [|k IH]; intros s; cbn [seq flat_map length]; [lia|]. rewrite app_length, Hf, IH. lia. Qed.

Lemma ks_of_blocks_range (bs : nat) blk c k : (0 < bs)%nat -> (forall i, length (blk i) = bs) ->
  flat_map (fun i => blk (c + N.of_nat i)) (seq 0 k)
  = ks_range (ks_of_blocks (N.of_nat bs) blk) (N.of_nat bs * c) (bs * k).
Proof.
  intros Hbs Hf. apply nth_ext_len.
  - rewrite ks_range_length. apply (flat_map_len bs (fun i => blk (c + N.of_nat i))). intros i. apply Hf.
  - intros j Hj.
    assert (Hj' : (j < bs * k)%nat).
    { rewrite (flat_map_len bs (fun i => blk (c + N.of_nat i))) in Hj by (intros; apply Hf). assumption. }
    rewrite (nth_flat_map_blocks bs (fun i => blk (c + N.of_nat i))) by (try assumption; intros; apply Hf).
    rewrite nth_ks_range by assumption. unfold ks_of_blocks.
    replace (N.of_nat bs * c + N.of_nat j) with (N.of_nat j + c * N.of_nat bs) by lia.
    rewrite N.mod_add, N.div_add by lia. cbn [Nat.add].
    f_equal.
    + rewrite <- (Nat2N.id (j mod bs)). f_equal. rewrite Nat2N.inj_mod. reflexivity.
    + f_equal. rewrite Nat2N.inj_div. lia.
Qed.

Lemma skipn_add {A} a b (l : list A) : skipn (a + b) l = skipn b (skipn a l).
Proof. revert l; induction a as [|a IH]; intros l; [reflexivity|]. destruct l; cbn [Nat.add skipn]; [rewrite skipn_nil; reflexivity | apply IH]. Qed.

(** ** Refinement, unlimited part *)
Section Refine.
  Context {S : Type} (C : score S) (ks : N -> N) (Rep : S -> N -> Prop) (safe : N -> nat -> Prop).
  Let bs := sc_bs C.
  Hypothesis Hbs : (0 < bs)%nat.
  Hypothesis Hgen : forall st c k, Rep st c -> safe c k ->
    exists st', sc_gen C k st = Ok (ks_range ks (N.of_nat bs * c) (bs * k), st') /\ Rep st' (c + N.of_nat k).
  Hypothesis Hsafe : forall c a b, safe c (a + b) -> safe c a /\ safe (c + N.of_nat a) b.

  (** Wrapper [w] is at byte position [P]; its core is at block [c]. *)
  Definition WRep (w : wrapper S) (P c : N) : Prop :=
    (1 <= w_cur w)%nat /\ (w_cur w <= bs)%nat /\ length (w_buf w) = bs
    /\ Rep (w_core w) c /\ N.of_nat bs * c = P + N.of_nat (bs - w_cur w)
    /\ skipn (w_cur w) (w_buf w) = ks_range ks P (bs - w_cur w).

  Lemma WRep_new st c : Rep st c -> WRep (w_new C st) (N.of_nat bs * c) c.
  Proof.
    intros H. unfold WRep, w_new. cbn [w_cur w_buf w_core]. fold bs. rewrite Nat.sub_diag.
    repeat split; try lia; try assumption. - apply repeat_length.
    - rewrite skipn_all2 by (rewrite repeat_length; lia). reflexivity.
  Qed.

  (** Blocks a request of [len] bytes takes from the core. *)
  Definition need (w : wrapper S) (len : nat) : nat := ((len - (bs - w_cur w) + bs - 1) / bs)%nat.

  Lemma write_block_ok st buf cur r c : Rep st c -> (0 < r)%nat -> (r < bs)%nat -> safe c 1 ->
    exists w', write_block C st buf cur r = Ok (ks_range ks (N.of_nat bs * c) r, w')
               /\ WRep w' (N.of_nat bs * c + N.of_nat r) (c + 1).
  Proof.
    intros HR Hr Hlt Hs. unfold write_block. destruct (Nat.eqb_spec r 0) as [|_]; [lia|].
    fold bs. apply Nat.ltb_lt in Hlt as Hlt'. rewrite Hlt'. cbn [assert_ bind].
    destruct (Hgen st c 1 HR Hs) as [st' [E R']]. rewrite E. cbn [bind]. rewrite Nat.mul_1_r.
    eexists. split; [rewrite ks_range_firstn by lia; reflexivity|].
    unfold WRep. cbn [w_cur w_buf w_core]. repeat split; try lia.
    - apply ks_range_length.
    - exact R'.
    - apply ks_range_skipn. lia.
  Qed.

  Lemma div_ceil_split r : (0 < r)%nat -> ((r + bs - 1) / bs = r / bs + (if r mod bs =? 0 then 0 else 1))%nat.
  Proof.
    intros Hr. pose proof (Nat.div_mod r bs ltac:(lia)) as E. pose proof (Nat.mod_upper_bound r bs ltac:(lia)) as U.
    destruct (Nat.eqb_spec (r mod bs) 0) as [H0|H0].
    - symmetry. apply (Nat.div_unique _ _ _ (bs - 1)); lia.
    - symmetry. apply (Nat.div_unique _ _ _ (r mod bs - 1)); lia.
  Qed.

  Lemma unchecked_write_ok w P c len : WRep w P c -> safe c (need w len) ->
    exists w', unchecked_write C w len = Ok (ks_range ks P len, w')
               /\ WRep w' (P + N.of_nat len) (c + N.of_nat (need w len)).
  Proof.
    intros (H1 & H2 & Hlb & HR & HP & Hk) Hs. unfold unchecked_write, read_cached, buf_rem. fold bs.
    set (m := Nat.min (bs - w_cur w) len) in *.
    assert (Hhead : slice (w_buf w) (w_cur w) m = ks_range ks P m).
    { unfold slice. rewrite Hk. apply ks_range_firstn. lia. }
    rewrite Hhead, ks_range_length. set (rest := (len - m)%nat) in *.
    assert (Hneed : need w len = ((rest + bs - 1) / bs)%nat) by (unfold need; f_equal; lia).
    destruct (Nat.eq_dec rest 0) as [Hr0|Hr0].
    - (* served from the buffer *)
      assert (Hn0 : need w len = 0%nat) by (rewrite Hneed, Hr0; apply Nat.div_small; lia).
      rewrite Hr0 in *. rewrite Nat.div_0_l, Nat.mod_0_l by lia.
      rewrite Hn0 in *. destruct (Hgen _ _ 0%nat HR Hs) as [st' [E R']]. rewrite E. cbn [bind].
      rewrite Nat.mul_0_r, ks_range_0. cbn [bind write_block Nat.eqb].
      assert (Hml : m = len) by lia. eexists. split; [rewrite Hml, app_nil_r; reflexivity|].
      unfold WRep. cbn [w_cur w_buf w_core]. repeat split; try lia; try assumption.
      rewrite skipn_add, Hk, ks_range_skipn by lia. f_equal; lia.
    - assert (Hm : m = (bs - w_cur w)%nat) by lia.
      assert (HP' : N.of_nat bs * c = P + N.of_nat m) by lia.
      rewrite Hneed, div_ceil_split in Hs by lia. apply Hsafe in Hs as [Hs1 Hs2].
      destruct (Hgen _ _ _ HR Hs1) as [st' [E R']]. rewrite E. cbn [bind].
      pose proof (Nat.div_mod rest bs ltac:(lia)) as Ed. pose proof (Nat.mod_upper_bound rest bs ltac:(lia)) as Eu.
      rewrite Hneed, div_ceil_split by lia.
      set (q := (rest / bs)%nat) in *. set (t := (rest mod bs)%nat) in *. clearbody q t.
      destruct (Nat.eqb_spec t 0) as [Ht0|Ht0].
      + rewrite Ht0. cbn [write_block Nat.eqb bind]. eexists. split.
        * rewrite app_nil_r. replace len with (m + bs * q)%nat by lia. rewrite ks_range_app, <- HP'. reflexivity.
        * unfold WRep. cbn [w_cur w_buf w_core].
          replace (w_cur w + m)%nat with bs by lia. rewrite Nat.sub_diag.
          rewrite skipn_all2 by lia.
          repeat split; try lia. replace (q + 0)%nat with q by lia. assumption.
      + destruct (write_block_ok st' (w_buf w) (w_cur w + m) t _ R') as [w' [E' HW']]; [lia|lia|assumption|].
        rewrite E'. cbn [bind]. eexists. split.
        * replace len with (m + (bs * q + t))%nat by lia. rewrite !ks_range_app.
          rewrite <- HP'. replace (N.of_nat bs * (c + N.of_nat q)) with (N.of_nat bs * c + N.of_nat (bs * q)) by lia.
          reflexivity.
        * replace (P + N.of_nat len) with (N.of_nat bs * (c + N.of_nat q) + N.of_nat t) by lia.
          replace (c + N.of_nat (q + 1)) with (c + N.of_nat q + 1) by lia. assumption.
  Qed.

  Lemma unchecked_apply_ok w P c d : WRep w P c -> safe c (need w (length d)) ->
    exists w', unchecked_apply C w d = Ok (ks_xor ks P d, w')
               /\ WRep w' (P + N.of_nat (length d)) (c + N.of_nat (need w (length d))).
  Proof.
    intros HW Hs. destruct (unchecked_write_ok w P c (length d) HW Hs) as [w' [E HW']].
    exists w'. unfold unchecked_apply. rewrite E. cbn [bind]. rewrite ks_xor_eq. split; [reflexivity|assumption].
  Qed.

  (** Ciphers without a limit ([remaining_blocks() = None], always safe). *)
  Ltac fin := repeat match goal with |- exists _, _ => eexists end;
    repeat match goal with |- _ /\ _ => split end; first [reflexivity | eassumption].
  Section Unlimited.
    Hypothesis Hrem : forall st, sc_rem C st = None.
    Hypothesis Hall : forall c k, safe c k.

    Lemma step_unlimited w P c o : WRep w P c ->
      exists r P' w' c', step_spec ks None false P o = Some (r, P') /\ step C None w o = Ok (r, w') /\ WRep w' P' c'.
    Proof.
      intros HW.
      assert (Hck : forall len, check_remaining C w len = true) by (intros; unfold check_remaining; rewrite Hrem; reflexivity).
      assert (Hap : forall d, exists w' c', try_apply C w d = Ok (Some (ks_xor ks P d, w')) /\ WRep w' (P + N.of_nat (length d)) c').
      { intros d. unfold try_apply. rewrite Hck. destruct (unchecked_apply_ok w P c d HW (Hall _ _)) as [w' [E HW']].
        rewrite E. cbn [bind]. do 2 eexists. split; [reflexivity | eassumption]. }
      destruct o as [d|d m|n|p|t]; cbn [step step_spec].
      - destruct (Hap d) as [w' [c' [E HW']]]. rewrite E. cbn [bind]. fin.
      - unfold apply_b2b. destruct (length d =? m)%nat; [|cbn [bind]; fin].
        destruct (Hap d) as [w' [c' [E HW']]]. rewrite E. cbn [bind]. fin.
      - unfold try_write. rewrite Hck. destruct (unchecked_write_ok w P c n HW (Hall _ _)) as [w' [E HW']].
        rewrite E. cbn [bind]. fin.
      - fin.
      - fin.
    Qed.

    Lemma run_unlimited h : forall w P c, WRep w P c ->
      exists rs P' w' c', run_spec ks None false P h = Some (rs, P') /\ run C None w h = Ok (rs, w') /\ WRep w' P' c'.
    Proof.
      induction h as [|o h IH]; intros w P c HW; cbn [run run_spec].
      - fin.
      - destruct (step_unlimited w P c o HW) as (r & P1 & w1 & c1 & E1 & E2 & HW1). rewrite E1, E2. cbn [bind].
        destruct (IH w1 P1 c1 HW1) as (rs & P2 & w2 & c2 & E3 & E4 & HW2). rewrite E3, E4. cbn [bind]. fin.
    Qed.
  End Unlimited.

  (** ** Seekable ciphers with 64-byte blocks *)
  Section Seekable.
    Context (K : sseek S) (usz : N) (strict : bool).
    Hypothesis Hb64 : bs = 64%nat.
    Let M := sk_mod K.
    Let lim := {| l_bs := 64; l_blocks := M |}.
    Hypothesis HM : 1 < M.
    Hypothesis Hget : forall st c, Rep st c -> sk_get K st = c mod M.
    Hypothesis Hset : forall st c b, Rep st c -> b < M -> Rep (sk_set K st b) b.
    Hypothesis Hrem : forall st c, Rep st c ->
      sc_rem C st = let r := M - 1 - c mod M in if r <? 2 ^ usz then Some r else None.
    Hypothesis Hsafe1 : forall c k, c mod M + N.of_nat k < M -> safe c k.
    Hypothesis Hsafe2 : strict = false -> forall c k, safe c k.
    (** In the strict case, a seek into the middle of the final block panics. *)
    Hypothesis Hpanic : strict = true -> forall st, Rep st (M - 1) -> sc_gen C 1 st = Panic.

    (** The position in its period, from the core's block number. *)
    Lemma pos_cases w P c : WRep w P c ->
      let r := N.of_nat (64 - w_cur w) in let c' := c mod M in
      r < 64 /\ ((P mod (64 * M) = 64 * c' - r /\ r <= 64 * c' /\ P mod (64 * M) <= 64 * (M - 1))
                 \/ (c' = 0 /\ 0 < r /\ P mod (64 * M) = 64 * M - r /\ 64 * (M - 1) < P mod (64 * M))).
    Proof.
      intros (H1 & H2 & _ & _ & HP & _) r c'. rewrite Hb64 in *. fold r in HP.
      change (N.of_nat 64) with 64 in HP.
      assert (Hr : r < 64) by lia. split; [assumption|].
      assert (HM0 : M <> 0) by (unfold M in *; lia).
      pose proof (N.div_mod c M HM0) as Ec. pose proof (N.mod_lt c M HM0) as Uc. fold c' in Ec, Uc.
      set (d := c / M) in *. clearbody d c' r M.
      destruct (N.eq_dec c' 0) as [Hc0|Hc0]; [destruct (N.eq_dec r 0) as [Hr0|Hr0]|].
      - left. subst c' r.
        assert (E : P mod (64 * M) = 0).
        { symmetry. apply (N.mod_unique P (64 * M) d 0); lia. }
        rewrite E. lia.
      - right. assert (d <> 0) by (intros ->; lia).
        assert (E : P mod (64 * M) = 64 * M - r).
        { symmetry. apply (N.mod_unique P (64 * M) (d - 1) (64 * M - r)); [lia|].
          replace d with (d - 1 + 1) in Ec by lia. set (e := d - 1) in *. clearbody e. lia. }
        rewrite E. lia.
      - left. assert (E : P mod (64 * M) = 64 * c' - r).
        { symmetry. apply (N.mod_unique P (64 * M) d (64 * c' - r)); lia. }
        rewrite E. lia.
    Qed.

    Lemma check_granted w P c len : WRep w P c -> N.of_nat len < 2 ^ usz ->
      check_remaining C w len = granted lim P (N.of_nat len).
    Proof.
      intros HW Hlen. pose proof (pos_cases w P c HW) as [Hr Hc].
      destruct HW as (H1 & H2 & _ & HR & HP & _). rewrite Hb64 in *.
      unfold check_remaining, buf_rem. fold bs. rewrite Hb64, (Hrem _ _ HR). cbv zeta.
      unfold granted, l_period, l_usable, lim. cbn [l_bs l_blocks]. cbv zeta.
      set (q := P mod (64 * M)) in *. set (c' := c mod M) in *. pose proof (N.mod_lt c M ltac:(lia)) as Uc.
      fold c' in Uc. assert (HM' : 1 < M) by assumption. clearbody q c' M.
      set (B := ((len - (64 - w_cur w) + 64 - 1) / 64)%nat).
      assert (HB : (64 * B < len - (64 - w_cur w) + 64 /\ len - (64 - w_cur w) <= 64 * B)%nat).
      { unfold B. pose proof (Nat.div_mod (len - (64 - w_cur w) + 64 - 1) 64 ltac:(lia)).
        pose proof (Nat.mod_upper_bound (len - (64 - w_cur w) + 64 - 1) 64 ltac:(lia)). lia. }
      clearbody B.
      assert (Hclaim : (if q <=? 64 * (M - 1) then q + N.of_nat len <=? 64 * (M - 1)
                        else q + N.of_nat len <=? 64 * M + 64 * (M - 1))
                       = (N.of_nat (len - (64 - w_cur w)) <=? 64 * (M - 1 - c'))).
      { destruct Hc as [(Eq & Hle & Hu) | (Ec & Hr0 & Eq & Hu)].
        - destruct (N.leb_spec q (64 * (M - 1))); [|lia].
          destruct (N.leb_spec (q + N.of_nat len) (64 * (M - 1)));
            destruct (N.leb_spec (N.of_nat (len - (64 - w_cur w))) (64 * (M - 1 - c'))); lia.
        - destruct (N.leb_spec q (64 * (M - 1))); [lia|].
          destruct (N.leb_spec (q + N.of_nat len) (64 * M + 64 * (M - 1)));
            destruct (N.leb_spec (N.of_nat (len - (64 - w_cur w))) (64 * (M - 1 - c'))); lia. }
      rewrite Hclaim. clear Hclaim Hc.
      destruct (N.ltb_spec (M - 1 - c') (2 ^ usz)) as [Hs|Hs].
      - destruct (Nat.leb_spec len (64 - w_cur w)).
        + symmetry. apply N.leb_le. lia.
        + destruct (N.leb_spec (N.of_nat B) (M - 1 - c'));
            destruct (N.leb_spec (N.of_nat (len - (64 - w_cur w))) (64 * (M - 1 - c'))); lia.
      - symmetry. apply N.leb_le. lia.
    Qed.

    (** Reading from the final block (only possible when not strict). *)
    Lemma granted_safe w P c len : WRep w P c -> (strict = true -> P mod (64 * M) <= 64 * (M - 1)) ->
      granted lim P (N.of_nat len) = true -> safe c (need w len).
    Proof.
      intros HW Hst Hg. destruct (Bool.bool_dec strict false) as [Es|Es]; [apply Hsafe2; assumption|].
      apply Bool.not_false_is_true in Es. specialize (Hst Es). pose proof (pos_cases w P c HW) as [Hr Hc].
      destruct HW as (H1 & H2 & _ & HR & HP & _). rewrite Hb64 in *.
      apply Hsafe1. unfold need. rewrite Hb64.
      set (B := ((len - (64 - w_cur w) + 64 - 1) / 64)%nat).
      assert (HB : (64 * B < len - (64 - w_cur w) + 64)%nat).
      { unfold B. pose proof (Nat.div_mod (len - (64 - w_cur w) + 64 - 1) 64 ltac:(lia)).
        pose proof (Nat.mod_upper_bound (len - (64 - w_cur w) + 64 - 1) 64 ltac:(lia)). lia. }
      unfold granted, l_period, l_usable, lim in Hg. cbn [l_bs l_blocks] in Hg. cbv zeta in Hg.
      set (q := P mod (64 * M)) in *. set (c' := c mod M) in *. pose proof (N.mod_lt c M ltac:(lia)) as Uc.
      fold c' in Uc. assert (HM' : 1 < M) by assumption. clearbody q c' M B.
      destruct (N.leb_spec q (64 * (M - 1))); [|lia]. apply N.leb_le in Hg. lia.
    Qed.

    Lemma current_pos_ok w P c tmax : WRep w P c ->
      try_current_pos C K w tmax =
      (let q := P mod (64 * M) in
       if (q <=? 64 * (M - 1)) && ((q + 64 - 1) / 64 * 64 <? tmax) then Some q else None).
    Proof.
      intros HW. pose proof (pos_cases w P c HW) as [Hr Hc].
      destruct HW as (H1 & H2 & _ & HR & HP & _). rewrite Hb64 in *.
      unfold try_current_pos, buf_rem. fold bs. rewrite Hb64, (Hget _ _ HR). fold M. cbv zeta.
      change (N.of_nat 64) with 64.
      set (q := P mod (64 * M)) in *. set (c' := c mod M) in *. pose proof (N.mod_lt c M ltac:(lia)) as Uc.
      fold c' in Uc. assert (HM' : 1 < M) by assumption. clearbody q c' M.
      destruct Hc as [(Eq & Hle & Hu) | (Ec & Hr0 & Eq & Hu)].
      - assert (Eup : (q + 64 - 1) / 64 = c').
        { symmetry. apply (N.div_unique _ _ _ (63 - N.of_nat (64 - w_cur w))); lia. }
        rewrite Eup. destruct (N.leb_spec q (64 * (M - 1))); [|lia]. cbn [andb].
        destruct (N.ltb_spec (c' * 64) tmax).
        + destruct (N.ltb_spec c' tmax); [|lia]. destruct (N.leb_spec (N.of_nat (64 - w_cur w)) (c' * 64)); [|lia].
          cbn [andb]. f_equal. lia.
        + rewrite andb_false_r. reflexivity.
      - destruct (N.leb_spec q (64 * (M - 1))); [lia|]. cbn [andb].
        destruct (N.leb_spec (N.of_nat (64 - w_cur w)) (c' * 64)); [lia|]. rewrite andb_false_r. reflexivity.
    Qed.

    (** Calls whose buffers are addressable. *)
    Definition op_fits (o : op) : Prop :=
      match o with
      | Apply d | ApplyB2b d _ => N.of_nat (length d) < 2 ^ usz
      | Write n => N.of_nat n < 2 ^ usz
      | _ => True
      end.

    (** In strict mode the machine never is inside the final block. *)
    Definition strict_ok (P : N) : Prop := strict = true -> P mod (64 * M) <= 64 * (M - 1).

    Lemma granted_next P n : strict_ok P -> granted lim P n = true -> strict_ok (P + n).
    Proof.
      intros Hst Hg Es. specialize (Hst Es). unfold granted, l_period, l_usable, lim in Hg.
      cbn [l_bs l_blocks] in Hg. cbv zeta in Hg.
      destruct (N.leb_spec (P mod (64 * M)) (64 * (M - 1))); [|lia]. apply N.leb_le in Hg.
      assert (HM' : 1 < M) by assumption.
      rewrite <- N.add_mod_idemp_l by lia. rewrite N.mod_small; lia.
    Qed.

    Ltac fin' := repeat match goal with |- exists _, _ => eexists end;
      repeat match goal with |- _ /\ _ => split end;
      first [reflexivity | eassumption | apply granted_next; assumption].

    Lemma step_seekable w P c o : WRep w P c -> strict_ok P -> op_fits o ->
      match step_spec ks (Some lim) strict P o with
      | None => step C (Some K) w o = Panic
      | Some (r, P') => exists w' c', step C (Some K) w o = Ok (r, w') /\ WRep w' P' c' /\ strict_ok P'
      end.
    Proof.
      intros HW Hst Hfit.
      assert (Hap : forall d, N.of_nat (length d) < 2 ^ usz ->
        if granted lim P (N.of_nat (length d))
        then exists w' c', try_apply C w d = Ok (Some (ks_xor ks P d, w')) /\ WRep w' (P + N.of_nat (length d)) c'
        else try_apply C w d = Ok None).
      { intros d Hd. unfold try_apply. rewrite (check_granted w P c _ HW Hd).
        destruct (granted lim P (N.of_nat (length d))) eqn:Eg; [|reflexivity].
        destruct (unchecked_apply_ok w P c d HW (granted_safe w P c _ HW Hst Eg)) as [w' [E HW']].
        rewrite E. cbn [bind]. do 2 eexists. split; [reflexivity | eassumption]. }
      destruct o as [d|d m|n|p|t]; cbn [step step_spec].
      - specialize (Hap d Hfit). destruct (granted lim P (N.of_nat (length d))) eqn:Eg.
        + destruct Hap as [w' [c' [E HW']]]. rewrite E. cbn [bind]. fin'.
        + rewrite Hap. cbn [bind]. fin'.
      - unfold apply_b2b. destruct (length d =? m)%nat; [|cbn [bind]; fin'].
        specialize (Hap d Hfit). destruct (granted lim P (N.of_nat (length d))) eqn:Eg.
        + destruct Hap as [w' [c' [E HW']]]. rewrite E. cbn [bind]. fin'.
        + rewrite Hap. cbn [bind]. fin'.
      - unfold try_write. rewrite (check_granted w P c _ HW Hfit).
        destruct (granted lim P (N.of_nat n)) eqn:Eg; [|cbn [bind]; fin'].
        destruct (unchecked_write_ok w P c n HW (granted_safe w P c _ HW Hst Eg)) as [w' [E HW']].
        rewrite E. cbn [bind]. fin'.
      - unfold l_usable, lim. cbn [l_bs l_blocks]. unfold try_seek. fold bs. rewrite Hb64. fold M.
        change (N.of_nat 64) with 64.
        assert (HM' : 1 < M) by assumption.
        destruct (N.ltb_spec (p / 64) M) as [Hlt|Hge]; [|cbn [bind]; fin'].
        destruct HW as (H1 & H2 & Hlb & HR & HP & Hk).
        assert (HRs : Rep (sk_set K (w_core w) (p / 64)) (p / 64)) by (apply (Hset _ c); assumption).
        pose proof (N.div_mod p 64 ltac:(lia)) as Ep. pose proof (N.mod_lt p 64 ltac:(lia)) as Up.
        destruct (N.eq_dec (p mod 64) 0) as [E0|E0].
        + (* block boundary: nothing is generated *)
          destruct (N.ltb_spec (64 * (M - 1)) p); [lia|]. rewrite andb_false_r.
          rewrite E0. cbn [N.to_nat write_block Nat.eqb bind]. eexists. exists (p / 64). split; [reflexivity|].
          split.
          * unfold WRep. cbn [w_cur w_buf w_core]. rewrite Hb64 in *. rewrite skipn_all2 by lia.
            repeat split; try lia. assumption.
          * intros _. rewrite N.mod_small; lia.
        + destruct (Bool.bool_dec strict false) as [Es|Es]; [|apply Bool.not_false_is_true in Es]; rewrite Es; cbn [andb].
          2:{ destruct (N.ltb_spec (64 * (M - 1)) p) as [Hf|Hf].
            -- assert (Eb : p / 64 = M - 1) by lia. rewrite Eb in *.
               unfold write_block. fold bs. rewrite Hb64.
               destruct (Nat.eqb_spec (N.to_nat (p mod 64)) 0); [lia|].
               destruct (Nat.ltb_spec (N.to_nat (p mod 64)) 64); [|lia]. cbn [assert_ bind].
               rewrite (Hpanic Es _ HRs). reflexivity.
            -- destruct (write_block_ok _ (w_buf w) 64%nat (N.to_nat (p mod 64)) _ HRs) as [w' [E HW']];
                 [lia | lia | apply Hsafe1; rewrite N.mod_small by assumption; lia |].
               rewrite E. cbn [bind]. rewrite Hb64 in HW'. change (N.of_nat 64) with 64 in HW'.
               rewrite N2Nat.id, <- Ep in HW'. do 2 eexists. split; [reflexivity|]. split; [exact HW'|].
               intros _. rewrite N.mod_small; lia. }
          destruct (write_block_ok _ (w_buf w) 64%nat (N.to_nat (p mod 64)) _ HRs) as [w' [E HW']];
              [lia | lia | apply Hsafe2; assumption |].
            rewrite E. cbn [bind]. rewrite Hb64 in HW'. change (N.of_nat 64) with 64 in HW'.
            rewrite N2Nat.id, <- Ep in HW'. do 2 eexists. split; [reflexivity|]. split; [exact HW'|].
            intros Ht. congruence.
      - rewrite (current_pos_ok w P c t HW). cbv zeta. unfold l_period, l_usable, lim. cbn [l_bs l_blocks].
        destruct ((P mod (64 * M) <=? 64 * (M - 1)) && _); cbn [bind]; fin'.
    Qed.

    Lemma run_seekable h : forall w P c, WRep w P c -> strict_ok P -> Forall op_fits h ->
      match run_spec ks (Some lim) strict P h with
      | None => run C (Some K) w h = Panic
      | Some (rs, P') => exists w' c', run C (Some K) w h = Ok (rs, w') /\ WRep w' P' c' /\ strict_ok P'
      end.
    Proof.
      induction h as [|o h IH]; intros w P c HW Hst Hf; cbn [run run_spec].
      - fin.
      - inversion Hf as [|? ? Ho Hh]; subst. pose proof (step_seekable w P c o HW Hst Ho) as Hs.
        destruct (step_spec ks (Some lim) strict P o) as [[r P1]|]; [|rewrite Hs; reflexivity].
        destruct Hs as (w1 & c1 & E1 & HW1 & Hst1). rewrite E1. cbn [bind].
        specialize (IH w1 P1 c1 HW1 Hst1 Hh).
        destruct (run_spec ks (Some lim) strict P1 h) as [[rs P2]|]; [|rewrite IH; reflexivity].
        destruct IH as (w2 & c2 & E2 & HW2 & Hst2). rewrite E2. cbn [bind]. fin'.
    Qed.
  End Seekable.
End Refine.
