(** The generators refine the position machine of [SpecRng]. *)
From Verif Require Import Word Res WordLemmas SpecChaCha SpecRng ChaChaCore ChaChaProofs SimdProofs ChaChaDispatch ChaChaDispatchProofs
  RabbitProofs CiphersProofs StreamLemmas WrapperProofs BlockRng ChaChaRng.
From Coq Require Import ZArith Lia ZifyBool ZifyNat ZifyN.
Ltac Zify.zify_post_hook ::= Z.div_mod_to_equations.

Lemma rg_le_eq n x : rg_le n x = to_le n x.
Proof. apply rb_octets_le. Qed.

Lemma to_le_add a : forall b x, to_le (a + b) x = to_le a x ++ to_le b (x / 256 ^ N.of_nat a).
Proof.
  induction a as [|a IH]; intros b x.
  - cbn [Nat.add to_le app]. change (256 ^ N.of_nat 0) with 1. rewrite N.div_1_r. reflexivity.
  - cbn [Nat.add to_le app]. rewrite IH. f_equal. f_equal. f_equal.
    rewrite Nat2N.inj_succ, N.pow_succ_r', N.div_div; [reflexivity | discriminate | apply N.pow_nonzero; discriminate].
Qed.
Lemma words_to_le8 x : words_of_bytes (to_le 8 x) = [x mod M32; x / M32 mod M32].
Proof.
  change 8%nat with (4 + 4)%nat. rewrite to_le_add. change (256 ^ N.of_nat 4) with M32.
  change (words_of_bytes (to_le 4 x ++ to_le 4 (x / M32))) with [from_le (to_le 4 x); from_le (to_le 4 (x / M32))].
  rewrite !from_to_le. reflexivity.
Qed.
Lemma le44 x : x < M64 -> from_le (to_le 4 (x mod M32) ++ to_le 4 (x / M32 mod M32)) = x.
Proof.
  intros H. assert (E : to_le 4 (x mod M32) ++ to_le 4 (x / M32 mod M32) = to_le 8 x).
  { change 8%nat with (4 + 4)%nat. rewrite to_le_add. change (256 ^ N.of_nat 4) with M32.
    assert (F : forall y, to_le 4 (y mod M32) = to_le 4 y) by
      (intros y; change M32 with (256 ^ N.of_nat 4); rewrite <- from_to_le; apply (to_from_le (to_le 4 y)), to_le_bytes).
    rewrite !F. reflexivity. }
  rewrite E, from_to_le. apply N.mod_small. exact H.
Qed.

Lemma djb_state_mod k c iv : sp_djb_state k (c mod 2 ^ 64) iv = sp_djb_state k c iv.
Proof.
  unfold sp_djb_state. change (2 ^ 64) with (2 ^ 32 * 2 ^ 32). change (2 ^ 32) with M32.
  replace (c mod (M32 * M32) mod M32) with (c mod M32) by lia.
  replace (c mod (M32 * M32) / M32 mod M32) with (c / M32 mod M32) by lia. reflexivity.
Qed.

Section Rng.
  Context (cf : config) (pc : cpu) (n : nat).
  Let G := rng_gen cf pc n.
  Context (seed : list N) (Hsl : length seed = 32%nat) (Hsb : bytes seed).

  Definition K (s c : N) : list N := mk_state Legacy seed (to_le 8 s) c.
  Lemma K_wf s c : wf16 (K s c).
  Proof. apply mk_state_wf; try assumption; [apply to_le_length | apply to_le_bytes]. Qed.

  Set Default Proof Using "All".
  Definition W (s w : N) : N := rg_word n seed s w.
  Definition ws (s p : N) (k : nat) : list N := map (fun i => W s (p + N.of_nat i)) (seq 0 k).
  Lemma ws_length s p k : length (ws s p k) = k.
  Proof using Type. clear G Hsl Hsb. unfold ws. rewrite map_length, seq_length. reflexivity. Qed.
  Lemma ws_app s p a b : ws s p (a + b) = ws s p a ++ ws s (p + N.of_nat a) b.
  Proof using Type. clear G Hsl Hsb. apply (ks_range_app (W s)). Qed.
  Lemma ws_skipn s p a b : skipn a (ws s p (a + b)) = ws s (p + N.of_nat a) b.
  Proof using Type. clear G Hsl Hsb. rewrite ws_app. apply skipn_app_len, ws_length. Qed.
  Lemma ws_nth s p k i : (i < k)%nat -> nth i (ws s p k) 0 = W s (p + N.of_nat i).
  Proof using Type. clear G Hsl Hsb.
    intros H. unfold ws. rewrite (nth_indep _ 0 (W s (p + N.of_nat 0))) by (rewrite map_length, seq_length; exact H).
    rewrite (map_nth (fun i => W s (p + N.of_nat i))). rewrite seq_nth by exact H. reflexivity.
  Qed.
  Lemma W_mod s p i : W s (p mod 2 ^ 68 + i) = W s (p + i).
  Proof using Type. clear G Hsl Hsb.
    unfold W, rg_word. change (2 ^ 68) with (16 * M64). change (2 ^ 64) with M64.
    replace ((p mod (16 * M64) + i) mod 16) with ((p + i) mod 16) by lia.
    replace ((p mod (16 * M64) + i) / 16 mod M64) with ((p + i) / 16 mod M64) by lia. reflexivity.
  Qed.
  Lemma W_lt s w : W s w < M32.
  Proof.
    unfold W, rg_word. rewrite rg_le_eq, djb_state_mod.
    pose proof (mk_state_spec Legacy seed (to_le 8 s) (w / 16) Hsl (to_le_length 8 s)) as E. cbn iota in E.
    rewrite <- E. rewrite <- run_rounds_spec by apply K_wf. fold (K s (w / 16)).
    destruct (run_rounds_wf n _ (K_wf s (w / 16))) as [Hl Hw]. apply (Forall_get W32 _ _ Hw). reflexivity.
  Qed.

  Lemma block_words s c : run_rounds n (K s c) = ws s (16 * c) 16.
  Proof.
    rewrite run_rounds_spec by apply K_wf. unfold K. rewrite mk_state_spec by (try assumption; apply to_le_length).
    assert (Hl : length (sp_core n (sp_djb_state seed c (to_le 8 s))) = 16%nat).
    { pose proof (run_rounds_wf n _ (K_wf s c)) as [Hl _]. rewrite run_rounds_spec in Hl by apply K_wf.
      unfold K in Hl. rewrite mk_state_spec in Hl by (try assumption; apply to_le_length). exact Hl. }
    apply nth_ext_len; [rewrite ws_length; exact Hl|]. rewrite Hl. intros i Hi.
    rewrite ws_nth by exact Hi. unfold W, rg_word. rewrite rg_le_eq, djb_state_mod.
    replace ((16 * c + N.of_nat i) / 16) with c by lia. replace (N.to_nat ((16 * c + N.of_nat i) mod 16)) with i by lia.
    reflexivity.
  Qed.
  Lemma words_from_ws s k : forall c, words_from Legacy n k (K s c) = ws s (16 * c) (16 * k).
  Proof.
    induction k as [|k IH]; intros c; [reflexivity|].
    rewrite words_from_S by apply K_wf. unfold K at 2. rewrite adv_mk_state by exact Hsl. fold (K s (c + 1)).
    rewrite IH, block_words. replace (16 * S k)%nat with (16 + 16 * k)%nat by lia. rewrite ws_app. f_equal. f_equal. lia.
  Qed.
  Lemma G_ok s c : G (K s c) = (ws s (16 * c) 64, K s (c + 4)).
  Proof.
    unfold G, rng_gen. rewrite generate_ok by apply K_wf. rewrite words_from_ws. f_equal. unfold K. apply adv_mk_state. exact Hsl.
  Qed.

  (** Generator [r] is at word [P] of stream [s]; its core counter is [c]. *)
  Definition RAt (r : rng) (s P c : N) : Prop :=
    b_core r = K s c /\ (b_idx r <= 64)%nat /\ P + 64 = 16 * c + N.of_nat (b_idx r)
    /\ ((b_idx r < 64)%nat -> 4 <= c /\ b_res r = ws s (16 * (c - 4)) 64).
  Definition RRep (r : rng) (s P : N) : Prop := (1 <= b_idx r)%nat /\ exists c, RAt r s P c.

  Lemma refill_ok r s P : RRep r s P -> (b_idx (refill G r) < 64)%nat /\ exists c, RAt (refill G r) s P c.
  Proof.
    intros (H1 & c & Hc & Hi & HP & Hb). unfold refill, BUFFER_SIZE. destruct (Nat.leb_spec 64 (b_idx r)).
    - rewrite Hc, G_ok. cbn [b_idx]. split; [lia|]. exists (c + 4). unfold RAt. cbn [b_idx b_core b_res].
      split; [reflexivity|]. split; [lia|]. split; [lia|]. intros _. split; [lia|]. f_equal. lia.
    - split; [assumption|]. exists c. unfold RAt. auto.
  Qed.
  Lemma next_word_ok r s P : RRep r s P -> exists r', next_word G r = (W s P, r') /\ RRep r' s (P + 1).
  Proof.
    intros H. destruct (refill_ok r s P H) as (Hi & c & Hc & Hi' & HP & Hb). unfold next_word. cbv zeta.
    set (q := refill G r) in *. eexists. split.
    - f_equal. destruct (Hb Hi) as [H4 ->]. unfold get. rewrite ws_nth by exact Hi. f_equal. lia.
    - split; [cbn [b_idx]; lia|]. exists c. unfold RAt. cbn [b_idx b_core b_res].
      split; [exact Hc|]. split; [lia|]. split; [lia|]. intros _. apply Hb. lia.
  Qed.
  Lemma lor64 s a b : N.lor (N.shiftl (W s a) 32) (W s b) = W s b + 2 ^ 32 * W s a.
  Proof. rewrite lor_shift_add; [lia|]. rewrite <- M32_pow. apply W_lt. Qed.
  Lemma next_u64_ok r s P : RRep r s P ->
    exists r', next_u64 G r = (W s P + 2 ^ 32 * W s (P + 1), r') /\ RRep r' s (P + 2).
  Proof.
    intros (H1 & c & Hc & Hi & HP & Hb). unfold next_u64, BUFFER_SIZE. cbv zeta. cbn [Nat.sub].
    destruct (Nat.ltb_spec (b_idx r) 63) as [L|L]; [|destruct (Nat.leb_spec 64 (b_idx r)) as [L2|L2]].
    - destruct (Hb ltac:(lia)) as [H4 ->]. unfold get. rewrite !ws_nth by lia. rewrite lor64.
      eexists. split.
      + f_equal. f_equal; [|f_equal]; f_equal; lia.
      + split; [cbn [b_idx]; lia|]. exists c. unfold RAt. cbn [b_idx b_core b_res].
        split; [exact Hc|]. split; [lia|]. split; [lia|]. intros _. auto.
    - rewrite Hc, G_ok. unfold get. rewrite !ws_nth by lia. rewrite lor64. eexists. split.
      + f_equal. f_equal; [|f_equal]; f_equal; lia.
      + split; [cbn [b_idx]; lia|]. exists (c + 4). unfold RAt. cbn [b_idx b_core b_res].
        split; [reflexivity|]. split; [lia|]. split; [lia|]. intros _. split; [lia|]. f_equal. lia.
    - destruct (Hb ltac:(lia)) as [H4 ->]. rewrite Hc, G_ok. unfold get. rewrite !ws_nth by lia. rewrite lor64. eexists. split.
      + f_equal. f_equal; [|f_equal]; f_equal; lia.
      + split; [cbn [b_idx]; lia|]. exists (c + 4). unfold RAt. cbn [b_idx b_core b_res].
        split; [reflexivity|]. split; [lia|]. split; [lia|]. intros _. split; [lia|]. f_equal. lia.
  Qed.
  Lemma bytes_ws_length s p k : length (bytes_of_words (ws s p k)) = (4 * k)%nat.
  Proof using Type. clear G Hsl Hsb. rewrite bytes_of_words_length, ws_length. lia. Qed.
  Lemma bytes_ws_app s p a b : bytes_of_words (ws s p (a + b)) = bytes_of_words (ws s p a) ++ bytes_of_words (ws s (p + N.of_nat a) b).
  Proof using Type. clear G Hsl Hsb. rewrite ws_app. unfold bytes_of_words. apply flat_map_app. Qed.
  Lemma fill_loop_ok fuel : forall r s P len, RRep r s P -> (len <= fuel)%nat ->
    exists r', fill_loop G fuel r len = (firstn len (bytes_of_words (ws s P ((len + 3) / 4))), r')
               /\ RRep r' s (P + N.of_nat ((len + 3) / 4)).
  Proof.
    induction fuel as [|fuel IH]; intros r s P len H Hf; cbn [fill_loop].
    - replace len with 0%nat by lia. exists r. change ((0 + 3) / 4)%nat with 0%nat. rewrite N.add_0_r. auto.
    - destruct (Nat.eqb_spec len 0) as [->|Hn].
      { exists r. change ((0 + 3) / 4)%nat with 0%nat. rewrite N.add_0_r. auto. }
      destruct (refill_ok r s P H) as (Hi & c & Hc & Hi' & HP & Hb). set (q := refill G r) in *. cbv zeta.
      destruct (Hb Hi) as [H4 Hres].
      assert (Hsk : skipn (b_idx q) (b_res q) = ws s P (64 - b_idx q)).
      { rewrite Hres. replace 64%nat with (b_idx q + (64 - b_idx q))%nat at 1 by lia. rewrite ws_skipn. f_equal. lia. }
      rewrite Hsk, ws_length. set (m := (64 - b_idx q)%nat) in *.
      destruct (Nat.le_gt_cases len (4 * m)) as [Hlen|Hlen].
      + rewrite Nat.min_r by exact Hlen. set (k := ((len + 3) / 4)%nat).
        assert (Hk : (k <= m)%nat) by (unfold k; lia).
        destruct (IH {| b_core := b_core q; b_res := b_res q; b_idx := b_idx q + k |} s (P + N.of_nat k) 0%nat) as (r' & E & Hr').
        * split; [cbn [b_idx]; unfold k; lia|]. exists c. unfold RAt. cbn [b_idx b_core b_res].
          split; [exact Hc|]. split; [unfold m in Hk; lia|]. split; [lia|]. intros _. auto.
        * lia.
        * rewrite Nat.sub_diag. rewrite E. exists r'. change ((0 + 3) / 4)%nat with 0%nat in *. rewrite N.add_0_r in Hr'.
          split; [|exact Hr']. f_equal. rewrite firstn_O, app_nil_r.
          replace m with (k + (m - k))%nat by lia. rewrite bytes_ws_app.
          rewrite firstn_app, bytes_ws_length. replace (len - 4 * k)%nat with 0%nat by (unfold k; lia).
          rewrite firstn_O, app_nil_r. reflexivity.
      + rewrite Nat.min_l by lia. replace ((4 * m + 3) / 4)%nat with m by lia.
        destruct (IH {| b_core := b_core q; b_res := b_res q; b_idx := b_idx q + m |} s (P + N.of_nat m) (len - 4 * m)%nat) as (r' & E & Hr').
        * split; [cbn [b_idx]; unfold m; lia|]. exists c. unfold RAt. cbn [b_idx b_core b_res].
          split; [exact Hc|]. split; [unfold m; lia|]. split; [lia|]. intros Hx. unfold m in Hx. lia.
        * unfold m in *. lia.
        * rewrite E. exists r'. set (k := ((len - 4 * m + 3) / 4)%nat) in *.
          replace ((len + 3) / 4)%nat with (m + k)%nat by (unfold k; lia).
          split; [|replace (P + N.of_nat (m + k)) with (P + N.of_nat m + N.of_nat k) by lia; exact Hr'].
          f_equal. rewrite bytes_ws_app, firstn_app, bytes_ws_length.
          rewrite firstn_all2 by (rewrite bytes_ws_length; lia).
          rewrite (firstn_all2 (bytes_of_words (ws s P m))) by (rewrite bytes_ws_length; lia). reflexivity.
  Qed.
  Lemma fill_ok r s P len : RRep r s P ->
    exists r', fill_bytes G r len = (firstn len (bytes_of_words (ws s P ((len + 3) / 4))), r')
               /\ RRep r' s (P + N.of_nat ((len + 3) / 4)).
  Proof. intros H. apply fill_loop_ok; [exact H | lia]. Qed.

  (** *** Positions *)
  Lemma offset_cases r s P c : RAt r s P c -> (1 <= b_idx r)%nat ->
    (word_offset r = 0%nat /\ P = 16 * c) \/ (word_offset r = b_idx r /\ (1 <= b_idx r < 64)%nat /\ P + 64 = 16 * c + N.of_nat (b_idx r) /\ 4 <= c).
  Proof using Type. clear G Hsl Hsb.
    intros (Hc & Hi & HP & Hb) H1. unfold word_offset, BUFFER_SIZE. destruct (Nat.eqb_spec (b_idx r) 64) as [E|E].
    - left. split; [reflexivity|]. rewrite E in HP. lia.
    - right. split; [reflexivity|]. split; [lia|]. split; [exact HP|]. apply Hb. lia.
  Qed.
  Lemma K_ctr s c : N.lor (N.shiftl (get (K s c) 13) 32) (get (K s c) 12) = c mod M64.
  Proof. exact (get_pos_mk Legacy seed (to_le 8 s) c Hsl). Qed.
  Lemma get_word_pos_ok r s P : RRep r s P -> get_word_pos r = P mod 2 ^ 68.
  Proof.
    intros (H1 & c & HA). pose proof (offset_cases _ _ _ _ HA H1) as Ho. destruct HA as (Hc & _).
    unfold get_word_pos. cbv zeta. rewrite Hc, K_ctr. change (N.shiftl 1 68 - 1) with (N.ones 68).
    rewrite N.land_ones. change (2 ^ 68) with (16 * M64). unfold BLOCK_WORDS, BUF_BLOCKS.
    destruct Ho as [[-> ->] | (-> & Hi & HP & H4)].
    - cbn [Nat.eqb]. change (N.of_nat 0) with 0. lia.
    - destruct (Nat.eqb_spec (b_idx r) 0); [lia|]. lia.
  Qed.
  (** Without overflow checks [get_block_pos] always gives the block of the next word; with
      them it panics exactly when the counter has just wrapped. *)
  Lemma get_block_pos_ok ck r s P : RRep r s P ->
    rng_get_block_pos ck r = if (if ck then negb (word_offset r =? 0)%nat && (get_block_pos Legacy (b_core r) <? 4) else false) then Panic
                             else Ok (P mod 2 ^ 68 / 16).
  Proof.
    intros (H1 & c & HA). pose proof (offset_cases _ _ _ _ HA H1) as Ho. destruct HA as (Hc & _).
    unfold rng_get_block_pos. cbv zeta. rewrite Hc. unfold K. rewrite (get_pos_mk Legacy seed (to_le 8 s) c Hsl). cbn [ctr_mod].
    change (2 ^ 68) with (16 * M64). unfold BLOCK_WORDS, BUF_BLOCKS, sub_ck, add_ck.
    destruct Ho as [[-> ->] | (-> & Hi & HP & H4)].
    - cbn [Nat.eqb negb andb]. replace (if ck then false else false) with false by (destruct ck; reflexivity). f_equal. lia.
    - destruct (Nat.eqb_spec (b_idx r) 0); [lia|]. cbn [negb andb].
      destruct (N.leb_spec 4 (c mod M64)) as [L|L]; destruct (N.ltb_spec (c mod M64) 4); try lia; cbn [bind].
      + replace (if ck then false else false) with false by (destruct ck; reflexivity).
        destruct (N.ltb_spec (c mod M64 - 4 + N.of_nat (b_idx r) / 16) M64); [f_equal; lia|lia].
      + destruct ck; [reflexivity|]. cbn [bind].
        destruct (N.ltb_spec (M64 + c mod M64 - 4 + N.of_nat (b_idx r) / 16) M64); f_equal; lia.
  Qed.

  (** *** Moving *)
  Lemma reset_0 r s c : b_core r = K s c -> exists r', reset_and_skip G r 0 = Ok r' /\ RRep r' s (16 * c) /\ b_core r' = K s c /\ b_idx r' = 64%nat.
  Proof.
    intros Hc. eexists. split; [reflexivity|]. cbn [b_core b_idx BUFFER_SIZE]. split; [|split; [exact Hc|reflexivity]].
    unfold BUFFER_SIZE. split; [cbn [b_idx]; lia|]. exists c. unfold RAt. cbn [b_idx b_core b_res].
    split; [exact Hc|]. split; [lia|]. split; [lia|]. intros; lia.
  Qed.
  Lemma K_set_ctr s c d : upd (upd (K s c) 12 (as_u32 d)) 13 (as_u32 (N.shiftr d 32)) = K s d.
  Proof.
    unfold K, mk_state. pose proof (words_of_bytes_length 8 seed Hsl) as Hw.
    destruct (words_of_bytes seed) as [|k0 [|k1 [|k2 [|k3 [|k4 [|k5 [|k6 [|k7 [|]]]]]]]]]; try discriminate Hw.
    unfold CONSTANTS, ctr_words, as_u32; cbn [app upd]. rewrite N.shiftr_div_pow2, <- M32_pow. reflexivity.
  Qed.
  Lemma K_mod s c : K s c = K s (c mod M64).
  Proof.
    unfold K, mk_state, ctr_words. replace (c mod M64 mod M32) with (c mod M32) by lia.
    replace (c mod M64 / M32 mod M32) with (c / M32 mod M32) by lia. reflexivity.
  Qed.
  Lemma set_word_pos_ok r s P p0 : RRep r s P -> exists r', rng_set_word_pos G r p0 = Ok r' /\ RRep r' s (p0 mod 2 ^ 68).
  Proof.
    intros (H1 & c & Hc & _). unfold rng_set_word_pos, BLOCK_WORDS. cbv zeta. rewrite Hc, K_set_ctr, K_mod.
    change (2 ^ 68) with (16 * M64). replace (p0 / 16 mod M64) with (p0 mod (16 * M64) / 16) by lia.
    replace (p0 mod 16) with (p0 mod (16 * M64) mod 16) by lia. set (p := p0 mod (16 * M64)). clearbody p.
    unfold reset_and_skip, BUFFER_SIZE. cbn [b_core b_res b_idx].
    destruct (Nat.eqb_spec (N.to_nat (p mod 16)) 0) as [E|E].
    - eexists. split; [reflexivity|]. split; [cbn [b_idx]; lia|]. exists (p / 16). unfold RAt. cbn [b_idx b_core b_res].
      split; [reflexivity|]. split; [lia|]. split; [lia|]. intros; lia.
    - destruct (Nat.ltb_spec (N.to_nat (p mod 16)) 64); [|lia]. cbn [assert_ bind]. rewrite G_ok.
      eexists. split; [reflexivity|]. split; [cbn [b_idx]; lia|]. exists (p / 16 + 4). unfold RAt. cbn [b_idx b_core b_res].
      split; [reflexivity|]. split; [lia|]. split; [lia|]. intros _. split; [lia|]. f_equal. lia.
  Qed.
  Lemma set_block_pos_ok r s P b : RRep r s P -> b < M64 ->
    exists r', rng_set_block_pos G r b = Ok r' /\ RRep r' s (16 * b).
  Proof.
    intros (H1 & c & Hc & _) Hb. unfold rng_set_block_pos.
    destruct (reset_0 r s c Hc) as (r' & -> & _ & Hc' & Hi'). cbn [bind].
    eexists. split; [reflexivity|]. rewrite Hc'.
    replace (set_block_pos Legacy (K s c) b) with (K s b) by (symmetry; apply (set_pos_mk Legacy); [exact Hsl | exact Hb]).
    split; [cbn [b_idx]; lia|]. exists b. unfold RAt. cbn [b_idx b_core b_res]. rewrite Hi'.
    split; [reflexivity|]. split; [lia|]. split; [lia|]. intros; lia.
  Qed.
  Lemma K_set_stream s c t : t < M64 -> upd (upd (K s c) 14 (as_u32 t)) 15 (as_u32 (N.shiftr t 32)) = K t c.
  Proof.
    intros Ht. unfold K, mk_state. pose proof (words_of_bytes_length 8 seed Hsl) as Hw.
    destruct (words_of_bytes seed) as [|k0 [|k1 [|k2 [|k3 [|k4 [|k5 [|k6 [|k7 [|]]]]]]]]]; try discriminate Hw.
    rewrite !words_to_le8. unfold CONSTANTS, ctr_words, as_u32. cbn [app upd].
    rewrite N.shiftr_div_pow2, <- M32_pow. reflexivity.
  Qed.
  Lemma set_stream_ok r s P t : RRep r s P -> t < M64 -> exists r', set_stream G r t = Ok r' /\ RRep r' t 0.
  Proof.
    intros (H1 & c & Hc & _) Ht. unfold set_stream. cbv zeta. rewrite Hc, K_set_stream by exact Ht.
    unfold rng_set_block_pos. destruct (reset_0 {| b_core := K t c; b_res := b_res r; b_idx := b_idx r |} t c eq_refl) as (r' & -> & _ & Hc' & Hi').
    cbn [bind]. eexists. split; [reflexivity|]. rewrite Hc'.
    replace (set_block_pos Legacy (K t c) 0) with (K t 0) by (symmetry; apply (set_pos_mk Legacy); [exact Hsl | reflexivity]).
    split; [cbn [b_idx]; lia|]. exists 0. unfold RAt. cbn [b_idx b_core b_res]. rewrite Hi'.
    split; [reflexivity|]. split; [lia|]. split; [lia|]. intros; lia.
  Qed.
  Lemma get_stream_ok r s P : RRep r s P -> s < M64 -> get_stream r = s.
  Proof.
    intros (H1 & c & Hc & _) Hs. unfold get_stream. rewrite Hc. unfold K, mk_state.
    pose proof (words_of_bytes_length 8 seed Hsl) as Hw.
    destruct (words_of_bytes seed) as [|k0 [|k1 [|k2 [|k3 [|k4 [|k5 [|k6 [|k7 [|]]]]]]]]]; try discriminate Hw.
    rewrite words_to_le8. unfold CONSTANTS, ctr_words, get. cbn [app nth]. apply le44. exact Hs.
  Qed.
  Lemma get_seed_ok r s P : RRep r s P -> get_seed r = seed.
  Proof.
    intros (H1 & c & Hc & _). unfold get_seed. rewrite Hc. unfold K, mk_state, slice.
    rewrite skipn_app_len by reflexivity. rewrite firstn_app_len by (apply (words_of_bytes_length 8 seed Hsl)).
    fold (bytes_of_words (words_of_bytes seed)). apply (bytes_of_words_of_bytes 8); assumption.
  Qed.
  Lemma from_seed_ok : exists r, rng_from_seed seed = Ok r /\ RRep r 0 0.
  Proof.
    unfold rng_from_seed. rewrite new_internal_ok by (try assumption; reflexivity). cbn [bind]. eexists. split; [reflexivity|].
    unfold b_new, BUFFER_SIZE. split; [cbn [b_idx]; lia|]. exists 0. unfold RAt. cbn [b_idx b_core b_res].
    split; [reflexivity|]. split; [lia|]. split; [lia|]. intros; lia.
  Qed.
  Lemma bytes_eqb_eq a : forall b, bytes_eqb a b = true <-> a = b.
  Proof using Type. clear G Hsl Hsb.
    induction a as [|x a IH]; intros [|y b]; cbn [bytes_eqb]; split; intros H; try discriminate; try reflexivity.
    - apply andb_prop in H as [H1 H2]. apply N.eqb_eq in H1. apply IH in H2. subst. reflexivity.
    - injection H as -> ->. rewrite N.eqb_refl. apply IH. reflexivity.
  Qed.
  Lemma serialize_ok ck r s P : RRep r s P -> s < M64 ->
    serialize_state ck r = Ok (seed ++ rg_le 8 s ++ rg_le 9 (P mod 2 ^ 68)).
  Proof.
    intros H Hs. unfold serialize_state. cbv zeta. rewrite (get_seed_ok _ _ _ H), (get_stream_ok _ _ _ H Hs), (get_word_pos_ok _ _ _ H).
    rewrite !rg_le_eq, to_le_length, Hsl. cbn [Nat.eqb andb].
    assert (E : skipn 9 (to_le 16 (P mod 2 ^ 68)) = repeat 0 7).
    { change (2 ^ 68) with (16 * M64). cbn [to_le skipn repeat]. rewrite !N.div_div by discriminate. cbn [N.mul Pos.mul].
      repeat match goal with |- context [?x / ?y] => replace (x / y) with 0 by lia end. reflexivity. }
    rewrite E. replace (bytes_eqb (repeat 0 7) (repeat 0 7)) with true by reflexivity. rewrite orb_true_r. reflexivity.
  Qed.
End Rng.
Set Default Proof Using "Type".

(** The call's effect on an unwrapped position. *)
Definition unext (o : rop) (P : N) : N :=
  match o with
  | NextU32 => P + 1 | NextU64 => P + 2 | Fill k => P + N.of_nat ((k + 3) / 4)
  | SetWordPos p => p mod 2 ^ 68 | SetBlockPos b => 16 * b | SetStream _ => 0
  | _ => P
  end.
Definition snext (o : rop) (s : N) : N := match o with SetStream t => t | _ => s end.
(** Arguments in the range of their Rust types. *)
Definition rop_ok (o : rop) : Prop :=
  match o with SetWordPos p => p < 2 ^ 128 | SetBlockPos b => b < 2 ^ 64 | SetStream t => t < 2 ^ 64 | _ => True end.

Section Steps.
  Context (cf : config) (pc : cpu) (n : nat).
  Let G := rng_gen cf pc n.
  Definition gat (seed : list N) (s P : N) : rg := {| g_seed := seed; g_stream := s; g_pos := P mod 2 ^ 68 |}.

  Lemma take_ws seed s P k : rg_take n (gat seed s P) k = ws n seed s P k.
  Proof. unfold rg_take, gat, ws. cbn [g_seed g_stream g_pos]. apply map_ext. intros i. apply (W_mod n seed). Qed.
  Lemma move_gat seed s P k : rg_move (gat seed s P) (P mod 2 ^ 68 + k) = gat seed s (P + k).
  Proof. unfold rg_move, gat. cbn [g_seed g_stream g_pos]. rewrite N.add_mod_idemp_l by discriminate. reflexivity. Qed.

  Lemma step_gat seed s P o : snd (rg_step n (gat seed s P) o) = gat seed (snext o s) (unext o P).
  Proof.
    destruct o; cbn [rg_step snd snext unext]; try reflexivity; try apply move_gat.
    unfold rg_move, gat. cbn [g_seed g_stream g_pos]. rewrite N.mod_mod by discriminate. reflexivity.
  Qed.

  Lemma rng_step_ok ck seed r s P o : length seed = 32%nat -> bytes seed -> RRep n seed r s P -> s < M64 -> rop_ok o ->
    (rng_step G ck r o = Panic /\ o = GetBlockPos /\ ck = true /\ word_offset r <> 0%nat /\ get_block_pos Legacy (b_core r) < 4)
    \/ exists r', rng_step G ck r o = Ok (fst (rg_step n (gat seed s P) o), r') /\ RRep n seed r' (snext o s) (unext o P).
  Proof using All.
    intros Hsl Hsb H Hs Ho.
    assert (right : forall A B : Prop, B -> A \/ B) by tauto.
    destruct o; cbn [rng_step rg_step fst snext unext rop_ok] in *; change (2 ^ 64) with M64 in *.
    - apply right. destruct (next_word_ok cf pc n seed Hsl Hsb r s P H) as (r' & E & H'). fold G in E. rewrite E.
      exists r'. rewrite take_ws, ws_nth by lia. rewrite N.add_0_r. auto.
    - apply right. destruct (next_u64_ok cf pc n seed Hsl Hsb r s P H) as (r' & E & H'). fold G in E. rewrite E.
      exists r'. rewrite take_ws, !ws_nth by lia. rewrite N.add_0_r. auto.
    - apply right. destruct (fill_ok cf pc n seed Hsl Hsb r s P n0 H) as (r' & E & H'). fold G in E. rewrite E.
      exists r'. rewrite take_ws. split; [|exact H']. do 2 f_equal. f_equal. unfold bytes_of_words. f_equal.
      apply flat_map_ext. intros x. symmetry. apply rg_le_eq.
    - apply right. exists r. rewrite (get_word_pos_ok cf pc n seed Hsl Hsb r s P H). auto.
    - apply right. destruct (set_word_pos_ok cf pc n seed Hsl Hsb r s P p H) as (r' & E & H'). fold G in E. rewrite E. cbn [bind]. eauto.
    - rewrite (get_block_pos_ok cf pc n seed Hsl Hsb ck r s P H).
      destruct ck.
      + destruct (Nat.eqb_spec (word_offset r) 0); cbn [negb andb].
        * apply right. exists r. auto.
        * destruct (N.ltb_spec (get_block_pos Legacy (b_core r)) 4).
          -- left. auto.
          -- apply right. exists r. auto.
      + apply right. exists r. auto.
    - apply right. destruct (set_block_pos_ok cf pc n seed Hsl Hsb r s P b H Ho) as (r' & E & H'). fold G in E. rewrite E. cbn [bind]. eauto.
    - apply right. exists r. rewrite (get_stream_ok cf pc n seed Hsl Hsb r s P H Hs). auto.
    - apply right. destruct (set_stream_ok cf pc n seed Hsl Hsb r s P s0 H Ho) as (r' & E & H'). fold G in E. rewrite E. cbn [bind]. eauto.
    - apply right. exists r. rewrite (get_seed_ok cf pc n seed Hsl Hsb r s P H). auto.
    - apply right. exists r. rewrite (serialize_ok cf pc n seed Hsl Hsb ck r s P H Hs). auto.
  Qed.

  (** Where the wrap has not been passed the counter is at least 4. *)
  Lemma low_no_panic seed r s P : length seed = 32%nat -> RRep n seed r s P -> P + 64 <= 2 ^ 68 ->
    word_offset r <> 0%nat -> 4 <= get_block_pos Legacy (b_core r).
  Proof using Type. clear G.
    intros Hsl (H1 & c & HA) HP Hw. pose proof (offset_cases n seed r s P c HA H1) as Ho. destruct HA as (Hc & _).
    rewrite Hc. unfold K. rewrite get_pos_mk by exact Hsl. cbn [ctr_mod]. change (2 ^ 68) with (16 * M64) in HP.
    destruct Ho as [[E _] | (_ & Hi & HP' & H4)]; [contradiction|]. rewrite N.mod_small by lia. exact H4.
  Qed.
End Steps.

(** *** Histories *)
Definition Rel (n : nat) (r : rng) (g : rg) : Prop :=
  length (g_seed g) = 32%nat /\ bytes (g_seed g) /\ g_stream g < M64
  /\ exists P, g = gat (g_seed g) (g_stream g) P /\ RRep n (g_seed g) r (g_stream g) P.

Lemma rel_step cf pc ck n r g o : Rel n r g -> rop_ok o ->
  (rng_step (rng_gen cf pc n) ck r o = Panic /\ o = GetBlockPos /\ ck = true)
  \/ exists r', rng_step (rng_gen cf pc n) ck r o = Ok (fst (rg_step n g o), r') /\ Rel n r' (snd (rg_step n g o)).
Proof.
  intros (Hsl & Hsb & Hs & P & Eg & HR) Ho.
  destruct (rng_step_ok cf pc n ck (g_seed g) r (g_stream g) P o Hsl Hsb HR Hs Ho) as [(E & E1 & E2 & _) | (r' & E & HR')].
  - left. auto.
  - right. exists r'. rewrite <- Eg in E. split; [exact E|].
    assert (Es : snd (rg_step n g o) = gat (g_seed g) (snext o (g_stream g)) (unext o P)) by (rewrite Eg; apply step_gat).
    rewrite Es. unfold Rel. cbn [g_seed g_stream gat]. repeat (split; [assumption|]).
    split; [destruct o; cbn [snext]; try exact Hs; exact Ho|]. exists (unext o P). auto.
Qed.

Lemma rel_run cf pc ck n : forall h r g, Rel n r g -> Forall rop_ok h -> ck = false \/ Forall (fun o => o <> GetBlockPos) h ->
  exists r', rng_run (rng_gen cf pc n) ck r h = Ok (fst (rg_run n g h), r') /\ Rel n r' (snd (rg_run n g h)).
Proof.
  induction h as [|o h IH]; intros r g HR Hok Hck; cbn [rng_run rg_run].
  - exists r. auto.
  - inversion Hok as [|? ? Ho Hok']; subst.
    destruct (rel_step cf pc ck n r g o HR Ho) as [(_ & E1 & E2) | (r1 & E & HR1)].
    + destruct Hck as [Hck|Hck]; [congruence|]. inversion Hck; subst. contradiction.
    + destruct (rg_step n g o) as [x g1]. cbn [fst snd] in E, HR1. rewrite E. cbn [bind].
      assert (Hck' : ck = false \/ Forall (fun o => o <> GetBlockPos) h) by (destruct Hck as [|Hck]; [auto | inversion Hck; auto]).
      destruct (IH r1 g1 HR1 Hok' Hck') as (r2 & E2 & HR2). destruct (rg_run n g1 h) as [xs g2]. cbn [fst snd] in *. rewrite E2.
      cbn [bind]. exists r2. auto.
Qed.
(** Whatever a history answers, when it does answer, is right. *)
Lemma rel_run_ok cf pc ck n : forall h r g xs r', Rel n r g -> Forall rop_ok h ->
  rng_run (rng_gen cf pc n) ck r h = Ok (xs, r') -> xs = fst (rg_run n g h) /\ Rel n r' (snd (rg_run n g h)).
Proof.
  induction h as [|o h IH]; intros r g xs r' HR Hok E; cbn [rng_run rg_run] in *.
  - injection E as <- <-. auto.
  - inversion Hok as [|? ? Ho Hok']; subst.
    destruct (rel_step cf pc ck n r g o HR Ho) as [(E1 & _) | (r1 & E1 & HR1)]; rewrite E1 in E; [discriminate E|].
    destruct (rg_step n g o) as [x g1]. cbn [fst snd bind] in *.
    destruct (rng_run (rng_gen cf pc n) ck r1 h) as [[xs1 r2]|] eqn:E2; [|discriminate E]. cbn [bind] in E. injection E as <- <-.
    destruct (IH r1 g1 xs1 r2 HR1 Hok' E2) as [-> HR2]. destruct (rg_run n g1 h) as [ys g2]. auto.
Qed.

Lemma rel_from_seed (cf : config) (pc : cpu) n seed : length seed = 32%nat -> bytes seed ->
  exists r, rng_from_seed seed = Ok r /\ Rel n r {| g_seed := seed; g_stream := 0; g_pos := 0 |}.
Proof.
  intros Hsl Hsb. destruct (from_seed_ok cf pc n seed Hsl Hsb) as (r & E & HR). exists r. split; [exact E|].
  unfold Rel. cbn [g_seed g_stream]. repeat (split; [assumption || reflexivity|]). exists 0. auto.
Qed.
Lemma rel_get (cf : config) (pc : cpu) n r g : Rel n r g -> get_seed r = g_seed g /\ get_stream r = g_stream g /\ get_word_pos r = g_pos g.
Proof.
  intros (Hsl & Hsb & Hs & P & Eg & HR). split; [|split].
  - apply (get_seed_ok cf pc n _ Hsl Hsb r _ P HR).
  - apply (get_stream_ok cf pc n _ Hsl Hsb r _ P HR Hs).
  - rewrite (get_word_pos_ok cf pc n _ Hsl Hsb r _ P HR). rewrite Eg. reflexivity.
Qed.
Lemma rng_eq_spec (cf : config) (pc : cpu) n r1 g1 r2 g2 : Rel n r1 g1 -> Rel n r2 g2 -> (rng_eq r1 r2 = true <-> g1 = g2).
Proof.
  intros H1 H2. destruct (rel_get cf pc n r1 g1 H1) as (A1 & A2 & A3). destruct (rel_get cf pc n r2 g2 H2) as (B1 & B2 & B3).
  unfold rng_eq. rewrite A1, A2, A3, B1, B2, B3. split.
  - intros E. apply andb_prop in E as [E E3]. apply andb_prop in E as [E1 E2].
    apply bytes_eqb_eq in E1. apply N.eqb_eq in E2, E3. destruct g1 as [a1 a2 a3], g2 as [b1 b2 b3]; cbn [g_seed g_stream g_pos] in E1, E2, E3 |- *. rewrite E1, E2, E3; reflexivity.
  - intros ->. rewrite !N.eqb_refl. rewrite (proj2 (bytes_eqb_eq (g_seed g2) (g_seed g2)) eq_refl). reflexivity.
Qed.
Lemma rel_serialize (cf : config) (pc : cpu) ck n r g : Rel n r g -> serialize_state ck r = Ok (g_seed g ++ rg_le 8 (g_stream g) ++ rg_le 9 (g_pos g)).
Proof.
  intros (Hsl & Hsb & Hs & P & Eg & HR). rewrite (serialize_ok cf pc n _ Hsl Hsb ck r _ P HR Hs). rewrite Eg. reflexivity.
Qed.
Lemma rg_int_eq l : rg_int l = from_le l.
Proof. induction l as [|b l IH]; cbn [rg_int fold_right from_le]; [reflexivity|]. fold (rg_int l). rewrite IH. reflexivity. Qed.
Lemma from_le_zeros l k : from_le (l ++ repeat 0 k) = from_le l.
Proof.
  induction l as [|b l IH]; cbn [app from_le]; [|rewrite IH; reflexivity].
  induction k as [|k IHk]; cbn [repeat from_le]; [reflexivity|]. rewrite IHk. reflexivity.
Qed.
Lemma rel_deserialize cf pc n seed st pos : length seed = 32%nat -> bytes seed -> length st = 8%nat -> bytes st -> length pos = 9%nat ->
  exists r, deserialize_state (rng_gen cf pc n) (seed ++ st ++ pos) = Ok r
            /\ Rel n r {| g_seed := seed; g_stream := rg_int st; g_pos := rg_int pos mod 2 ^ 68 |}.
Proof.
  intros Hsl Hsb Htl Htb Hpl. unfold deserialize_state. cbv zeta.
  rewrite firstn_app_len by exact Hsl. rewrite (skipn_app_len seed) by exact Hsl. rewrite firstn_app_len by exact Htl.
  replace (skipn 40 (seed ++ st ++ pos)) with pos by (rewrite app_assoc, skipn_app_len; [reflexivity | rewrite app_length; lia]).
  rewrite Hsl, Htl, Hpl. cbn [Nat.eqb andb assert_ bind]. rewrite new_internal_ok by assumption. cbn [bind].
  rewrite from_le_zeros, <- rg_int_eq.
  assert (Hst : rg_int st < M64) by (rewrite rg_int_eq; pose proof (from_le_lt st Htb) as H; rewrite Htl in H; exact H).
  assert (HR : RRep n seed (b_new (mk_state Legacy seed st 0)) (rg_int st) 0).
  { split; [cbn; unfold BUFFER_SIZE; lia|]. exists 0. unfold RAt, b_new, BUFFER_SIZE, K. cbn [b_idx b_core b_res].
    split; [|split; [lia|split; [lia|lia]]]. f_equal. rewrite rg_int_eq. rewrite <- Htl. symmetry. apply to_from_le. exact Htb. }
  destruct (set_word_pos_ok cf pc n seed Hsl Hsb _ _ _ (rg_int pos) HR) as (r & E & HR'). rewrite E. exists r. split; [reflexivity|].
  unfold Rel. cbn [g_seed g_stream]. repeat (split; [assumption|]). exists (rg_int pos mod 2 ^ 68). split; [|exact HR'].
  unfold gat. rewrite N.mod_mod by discriminate. reflexivity.
Qed.

(** *** Overflow checks: histories that do not pass the wrap. *)
(** No draw passes word 2^68, and block positions are asked for at most at word 2^68 - 64. *)
Fixpoint rg_low (n : nat) (g : rg) (h : list rop) : Prop :=
  match h with
  | [] => True
  | o :: h' => match o with
               | NextU32 => g_pos g + 1 < 2 ^ 68 | NextU64 => g_pos g + 2 < 2 ^ 68
               | Fill k => g_pos g + N.of_nat ((k + 3) / 4) < 2 ^ 68
               | GetBlockPos => g_pos g + 64 <= 2 ^ 68 | _ => True
               end /\ rg_low n (snd (rg_step n g o)) h'
  end.
Definition RelX (n : nat) (r : rng) (g : rg) : Prop :=
  length (g_seed g) = 32%nat /\ bytes (g_seed g) /\ g_stream g < M64 /\ g_pos g < 2 ^ 68 /\ RRep n (g_seed g) r (g_stream g) (g_pos g).
Lemma low_run cf pc ck n : forall h r g, RelX n r g -> Forall rop_ok h -> rg_low n g h ->
  exists r', rng_run (rng_gen cf pc n) ck r h = Ok (fst (rg_run n g h), r').
Proof.
  induction h as [|o h IH]; intros r g HX Hok Hlow; cbn [rng_run rg_run].
  - exists r. reflexivity.
  - destruct HX as (Hsl & Hsb & Hs & Hp & HR). inversion Hok as [|? ? Ho Hok']; subst. cbn [rg_low] in Hlow. destruct Hlow as [Hl Hlow].
    assert (Eg : g = gat (g_seed g) (g_stream g) (g_pos g)).
    { destruct g as [a1 a2 a3]; unfold gat; cbn [g_seed g_stream g_pos] in *. rewrite N.mod_small by exact Hp. reflexivity. }
    destruct (rng_step_ok cf pc n ck (g_seed g) r (g_stream g) (g_pos g) o Hsl Hsb HR Hs Ho) as [(_ & -> & _ & Hw & Hlt) | (r1 & E & HR1)].
    + pose proof (low_no_panic n _ r _ _ Hsl HR Hl Hw). lia.
    + rewrite <- Eg in E. rewrite E. cbn [bind].
      assert (Es : snd (rg_step n g o) = gat (g_seed g) (snext o (g_stream g)) (unext o (g_pos g))) by (rewrite Eg at 1; apply step_gat).
      assert (Hu : unext o (g_pos g) < 2 ^ 68).
      { destruct o; cbn [unext]; try exact Hl; try exact Hp; try (apply N.mod_lt; discriminate); try reflexivity.
        cbn [rop_ok] in Ho. change (2 ^ 64) with M64 in Ho. change (2 ^ 68) with (16 * M64). lia. }
      assert (HX1 : RelX n r1 (snd (rg_step n g o))).
      { rewrite Es. unfold RelX, gat. cbn [g_seed g_stream g_pos]. rewrite N.mod_small by exact Hu. repeat (split; [assumption|]).
        split; [destruct o; cbn [snext]; try exact Hs; exact Ho|]. auto. }
      destruct (rg_step n g o) as [x g1]. cbn [fst snd] in *.
      destruct (IH r1 g1 HX1 Hok' Hlow) as (r2 & E2). destruct (rg_run n g1 h) as [xs g2]. cbn [fst] in *. rewrite E2. cbn [bind]. eauto.
Qed.
Lemma relx_from_seed (cf : config) (pc : cpu) n seed : length seed = 32%nat -> bytes seed ->
  exists r, rng_from_seed seed = Ok r /\ RelX n r {| g_seed := seed; g_stream := 0; g_pos := 0 |}.
Proof.
  intros Hsl Hsb. destruct (from_seed_ok cf pc n seed Hsl Hsb) as (r & E & HR). exists r. split; [exact E|].
  unfold RelX. cbn [g_seed g_stream g_pos]. repeat (split; [assumption || reflexivity|]). exact HR.
Qed.
