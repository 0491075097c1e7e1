(** Final theorems C21 to C31: [ChaCha8Rng], [ChaCha12Rng], [ChaCha20Rng] and the
    generator interface of [ChaChaCore].

    [rng_run (rng_gen c p n) ck r h] is the model: the calls [h] on generator [r] with
    [n] double rounds, in build [c] on CPU [p], with overflow checks iff [ck].
    [rg_run n g h] is the specification of [SpecRng]: a seed, a stream number and a word
    position in a fixed table [rg_word]. *)
From Coq Require Import String.
From Verif Require Import Word Res WordLemmas Hex PropCommon SpecChaCha SpecRng SpecStream ChaChaCore ChaChaBackend ChaChaSoft ChaChaProofs Simd SimdProofs
  ChaChaSse2 ChaChaSse2Proofs ChaChaAvx2 ChaChaAvx2Proofs ChaChaNeonProofs ChaChaDispatch ChaChaDispatchProofs
  Ciphers WrapperProofs CiphersProofs StreamLemmas PropertiesStream BlockRng ChaChaRng RngProofs.
From Coq Require Import ZArith Lia ZifyBool ZifyNat ZifyN.
Ltac Zify.zify_post_hook ::= Z.div_mod_to_equations.
Local Open Scope string_scope.
Local Open Scope N_scope.
Local Open Scope list_scope.

(** Generators a program can obtain: from a seed, from a serialised state, by calls. *)
Inductive reachable (n : nat) : rng -> Prop :=
| R_seed seed r : octets 32 seed -> rng_from_seed seed = Ok r -> reachable n r
| R_deserialize c p a r : octets 49 a -> deserialize_state (rng_gen c p n) a = Ok r -> reachable n r
| R_call c p ck r o x r' : reachable n r -> rop_ok o -> rng_step (rng_gen c p n) ck r o = Ok (x, r') -> reachable n r'.
(** The specification state a generator stands at. *)
Definition at_ (r : rng) : rg := {| g_seed := get_seed r; g_stream := get_stream r; g_pos := get_word_pos r |}.
Definition fresh (seed : list N) : rg := {| g_seed := seed; g_stream := 0; g_pos := 0 |}.
(** Calls other than [get_block_pos]. *)
Definition no_gbp (h : list rop) : Prop := Forall (fun o => o <> GetBlockPos) h.

Definition cf0 : config := {| c_target := OtherTarget; c_backend := CfgSoft; c_avx512 := false |}.
Definition pc0 : cpu := {| has_avx512 := false; has_avx2 := false; has_sse2 := false |}.

Lemma split49 a : octets 49 a -> exists seed st pos, a = seed ++ st ++ pos /\ List.length seed = 32%nat /\ bytes seed
  /\ List.length st = 8%nat /\ bytes st /\ List.length pos = 9%nat /\ bytes pos.
Proof.
  intros [Hl Hb]. exists (firstn 32 a), (firstn 8 (skipn 32 a)), (skipn 8 (skipn 32 a)).
  rewrite !firstn_skipn. split; [reflexivity|].
  repeat split; rewrite ?firstn_length, ?skipn_length; try lia; repeat (apply bytes_firstn || apply bytes_skipn); exact Hb.
Qed.
Lemma reach_rel n r : reachable n r -> Rel n r (at_ r).
Proof.
  intros H. assert (X : exists g, Rel n r g).
  { induction H as [seed r [Hl Hb] E | c p a r Ha E | c p ck r o x r' H IH Ho E].
    - destruct (rel_from_seed cf0 pc0 n seed Hl Hb) as (r' & E' & HR). rewrite E in E'. injection E' as <-. eauto.
    - destruct (split49 a Ha) as (seed & st & pos & -> & Hsl & Hsb & Htl & Htb & Hpl & Hpb).
      destruct (rel_deserialize c p n seed st pos Hsl Hsb Htl Htb Hpl) as (r' & E' & HR). rewrite E in E'. injection E' as <-. eauto.
    - destruct IH as [g HR]. destruct (rel_step c p ck n r g o HR Ho) as [(E' & _) | (r1 & E' & HR1)]; rewrite E in E'; [discriminate E'|].
      injection E' as -> ->. eauto. }
  destruct X as [g HR]. destruct (rel_get cf0 pc0 n r g HR) as (E1 & E2 & E3). unfold at_. rewrite E1, E2, E3.
  destruct g; exact HR.
Qed.
Lemma reach_run n c p ck h : forall r xs r', reachable n r -> Forall rop_ok h -> rng_run (rng_gen c p n) ck r h = Ok (xs, r') -> reachable n r'.
Proof.
  induction h as [|o h IH]; intros r xs r' H Hok E; cbn [rng_run] in E; [injection E as <- <-; exact H|].
  inversion Hok as [|? ? Ho Hok']; subst.
  destruct (rng_step (rng_gen c p n) ck r o) as [[x r1]|] eqn:E1; [|discriminate E]. cbn [bind] in E.
  destruct (rng_run (rng_gen c p n) ck r1 h) as [[ys r2]|] eqn:E2; [|discriminate E]. cbn [bind] in E. injection E as <- <-.
  apply (IH r1 ys r2); [apply (R_call n c p ck r o x r1) | |]; assumption.
Qed.
Lemma reach_at n r g : reachable n r -> Rel n r g -> at_ r = g.
Proof.
  intros _ HR. destruct (rel_get cf0 pc0 n r g HR) as (E1 & E2 & E3). unfold at_. rewrite E1, E2, E3. destruct g; reflexivity.
Qed.
(** Every history, from any reachable generator. *)
Lemma run_at n c p ck r h : reachable n r -> Forall rop_ok h -> ck = false \/ no_gbp h ->
  exists r', rng_run (rng_gen c p n) ck r h = Ok (fst (rg_run n (at_ r) h), r') /\ at_ r' = snd (rg_run n (at_ r) h).
Proof.
  intros H Hok Hck. destruct (rel_run c p ck n h r (at_ r) (reach_rel n r H) Hok Hck) as (r' & E & HR).
  exists r'. split; [exact E|]. apply (reach_at n); [|exact HR]. apply (reach_run n c p ck h r _ r' H Hok E).
Qed.

(** ** C21 *)
(** The draws of a history. *)
Inductive draw := DU32 | DU64 | DFill (n : nat).
Definition draw_op (d : draw) : rop := match d with DU32 => NextU32 | DU64 => NextU64 | DFill n => Fill n end.
Definition draw_words (d : draw) : nat := match d with DU32 => 1 | DU64 => 2 | DFill n => (n + 3) / 4 end.
Fixpoint total (ds : list draw) : nat := match ds with [] => 0 | d :: ds' => draw_words d + total ds' end.
(** What one draw makes of the words it takes. *)
Definition draw_val (d : draw) (ws : list N) : rret :=
  match d with
  | DU32 => Num (nth 0 ws 0)
  | DU64 => Num (nth 0 ws 0 + 2 ^ 32 * nth 1 ws 0)
  | DFill n => Buf (firstn n (flat_map (rg_le 4) ws))
  end.
(** Draws consume consecutive words of [ws]. *)
Fixpoint carve (ds : list draw) (ws : list N) : list rret :=
  match ds with
  | [] => []
  | d :: ds' => draw_val d (firstn (draw_words d) ws) :: carve ds' (skipn (draw_words d) ws)
  end.

Lemma word_mod n seed s p i : rg_word n seed s (p mod 2 ^ 68 + i) = rg_word n seed s (p + i).
Proof. exact (W_mod n seed s p i). Qed.
Lemma draws_carve n ds : forall g,
  fst (rg_run n g (map draw_op ds)) = carve ds (rg_take n g (total ds))
  /\ snd (rg_run n g (map draw_op ds)) = match ds with [] => g | _ => rg_move g (g_pos g + N.of_nat (total ds)) end.
Proof.
  induction ds as [|d ds IH]; intros g; [split; reflexivity|].
  set (k := draw_words d).
  assert (Es : rg_step n g (draw_op d) = (draw_val d (rg_take n g k), rg_move g (g_pos g + N.of_nat k))) by (destruct d; reflexivity).
  assert (Et : rg_take n g (k + total ds) = rg_take n g k ++ rg_take n (rg_move g (g_pos g + N.of_nat k)) (total ds)).
  { unfold rg_take at 1. rewrite seq_app, map_app. cbn [Nat.add]. f_equal. unfold rg_take. cbn [rg_move rg_move g_seed g_stream g_pos].
    rewrite <- (Nat.add_0_r k) at 1. rewrite <- (seq_map_add k), map_map. apply map_ext. intros i. rewrite word_mod. f_equal. lia. }
  assert (Hl : List.length (rg_take n g k) = k) by (unfold rg_take; rewrite map_length, seq_length; reflexivity).
  specialize (IH (rg_move g (g_pos g + N.of_nat k))) as [IH1 IH2].
  cbn [map rg_run carve total]. fold k. rewrite Es.
  destruct (rg_run n (rg_move g (g_pos g + N.of_nat k)) (map draw_op ds)) as [xs g2]. cbn [fst snd] in *.
  rewrite Et, firstn_app_len, skipn_app_len by exact Hl. rewrite IH1. split; [reflexivity|].
  rewrite IH2. destruct ds as [|d' ds].
  - cbn [total]. rewrite Nat.add_0_r. reflexivity.
  - unfold rg_move. cbn [g_seed g_stream g_pos]. f_equal. rewrite N.add_mod_idemp_l by discriminate. f_equal. lia.
Qed.
Lemma draws_ok ds : Forall rop_ok (map draw_op ds).
Proof. apply Forall_map, Forall_forall. intros [] _; exact I. Qed.
Lemma draws_no_gbp ds : no_gbp (map draw_op ds).
Proof. apply Forall_map, Forall_forall. intros [] _; discriminate. Qed.

Theorem C21_draws n seed : octets 32 seed ->
  exists r f, rng_from_seed seed = Ok r
  /\ forall c p ck ds, exists r', rng_run (rng_gen c p n) ck r (map draw_op ds) = Ok (carve ds (map (fun i => f (N.of_nat i)) (seq 0 (total ds))), r').
Proof.
  intros [Hl Hb]. destruct (rel_from_seed cf0 pc0 n seed Hl Hb) as (r & E & HR). exists r, (rg_word n seed 0). split; [exact E|].
  intros c p ck ds. destruct (rel_run c p ck n _ r _ HR (draws_ok ds) (or_intror (draws_no_gbp ds))) as (r' & E' & _).
  exists r'. rewrite E'. rewrite (proj1 (draws_carve n ds _)). reflexivity.
Qed.
Print Assumptions C21_draws.
(** From any reachable generator the next [total ds] words of the table are consumed. *)
Theorem C21_draws_reachable n c p ck r ds : reachable n r ->
  exists r', rng_run (rng_gen c p n) ck r (map draw_op ds)
    = Ok (carve ds (map (fun i => rg_word n (get_seed r) (get_stream r) (get_word_pos r + N.of_nat i)) (seq 0 (total ds))), r').
Proof.
  intros H. destruct (run_at n c p ck r _ H (draws_ok ds) (or_intror (draws_no_gbp ds))) as (r' & E & _). exists r'. rewrite E.
  rewrite (proj1 (draws_carve n ds _)). reflexivity.
Qed.
Print Assumptions C21_draws_reachable.
(** All calls: the answers are those of the position machine. *)
Theorem C21_history n c p ck seed h : octets 32 seed -> Forall rop_ok h -> ck = false \/ no_gbp h ->
  exists r r', rng_from_seed seed = Ok r /\ rng_run (rng_gen c p n) ck r h = Ok (fst (rg_run n (fresh seed) h), r').
Proof.
  intros [Hl Hb] Hok Hck. destruct (rel_from_seed cf0 pc0 n seed Hl Hb) as (r & E & HR). exists r.
  destruct (rel_run c p ck n h r _ HR Hok Hck) as (r' & E' & _). exists r'. auto.
Qed.
Print Assumptions C21_history.

(** ** C22 *)
Theorem C22_word n c p ck seed s w : octets 32 seed -> s < 2 ^ 64 -> w < 2 ^ 68 ->
  exists r r', rng_from_seed seed = Ok r
  /\ rng_run (rng_gen c p n) ck r [SetStream s; SetWordPos w; NextU32]
     = Ok ([Unit; Unit; Num (nth (N.to_nat (w mod 16)) (sp_core n (sp_djb_state seed (w / 16) (rg_le 8 s))) 0)], r').
Proof.
  intros Hseed Hs Hw.
  destruct (C21_history n c p ck seed [SetStream s; SetWordPos w; NextU32] Hseed) as (r & r' & E & E').
  - repeat constructor; cbn [rop_ok]; [exact Hs|]. transitivity (2 ^ 68); [exact Hw | reflexivity].
  - right. repeat constructor; discriminate.
  - exists r, r'. split; [exact E|]. rewrite E'. apply (f_equal (fun l => Ok (l, r'))). cbn [rg_run rg_step fst fresh g_seed rg_move g_stream g_pos].
    unfold rg_take. cbn [rg_move seq map nth g_seed g_stream g_pos]. change (N.of_nat 0) with 0. rewrite N.add_0_r, (N.mod_small w (2 ^ 68)) by exact Hw. unfold rg_word.
    rewrite (N.mod_small (w / 16)); [reflexivity|]. change (2 ^ 68) with (16 * 2 ^ 64) in Hw. lia.
Qed.
Print Assumptions C22_word.

Lemma nth_ser l : forall i j, (j < 4)%nat -> nth (4 * i + j) (sp_serialize l) 0 = nth j (rg_le 4 (nth i l 0)) 0.
Proof.
  induction l as [|x l IH]; intros i j Hj.
  - cbn [sp_serialize flat_map]. rewrite (nth_overflow []) by (cbn; lia). destruct i; cbn [nth];
      destruct j as [|[|[|[|]]]]; try lia; reflexivity.
  - destruct i as [|i].
    + cbn [Nat.mul Nat.add nth]. destruct j as [|[|[|[|]]]]; try lia; reflexivity.
    + replace (4 * S i + j)%nat with (4 + (4 * i + j))%nat by lia. cbn [nth]. rewrite <- IH by exact Hj. reflexivity.
Qed.
Lemma word_bytes n seed s q k :
  flat_map (rg_le 4) (map (fun i => rg_word n seed s (q + N.of_nat i)) (seq 0 k))
  = map (fun i => cipher_ks (CChaCha Legacy n seed (rg_le 8 s)) (4 * q + N.of_nat i)) (seq 0 (4 * k)).
Proof.
  induction k as [|k IH]; [reflexivity|].
  rewrite seq_S, map_app, flat_map_app, IH. replace (4 * S k)%nat with (4 * k + 4)%nat by lia.
  rewrite seq_app, map_app. f_equal. cbn [map flat_map Nat.add]. rewrite app_nil_r.
  remember (q + N.of_nat k) as w eqn:Ew.
  assert (E : forall j, (j < 4)%nat -> cipher_ks (CChaCha Legacy n seed (rg_le 8 s)) (4 * q + N.of_nat (4 * k + j)) = nth j (rg_le 4 (rg_word n seed s w)) 0).
  { intros j Hj. cbn [cipher_ks]. unfold ks_of_blocks, sp_djb_block. replace (4 * q + N.of_nat (4 * k + j)) with (4 * w + N.of_nat j) by lia.
    unfold rg_word. rewrite djb_state_mod. replace ((4 * w + N.of_nat j) / 64) with (w / 16) by lia.
    replace (N.to_nat ((4 * w + N.of_nat j) mod 64)) with (4 * N.to_nat (w mod 16) + j)%nat by lia.
    apply nth_ser. exact Hj. }
  remember (rg_word n seed s w) as x. rewrite <- (Nat.add_0_r (4 * k)) at 1. rewrite <- (seq_map_add (4 * k)), map_map.
  transitivity (map (fun j => nth j (rg_le 4 x) 0) (seq 0 4)); [reflexivity|].
  apply map_ext_in. intros j Hj. apply in_seq in Hj. rewrite <- E by lia. reflexivity.
Qed.
Lemma firstn_map_seq {A} (f : nat -> A) a b : (a <= b)%nat -> firstn a (map f (seq 0 b)) = map f (seq 0 a).
Proof.
  intros H. rewrite firstn_map. f_equal. replace b with (a + (b - a))%nat by lia. rewrite seq_app. apply firstn_app_len, seq_length.
Qed.
(** [fill_bytes] gives the bytes of the ChaCha keystream with the stream number as
    nonce, from byte 4 [w]. *)
Theorem C22_fill_is_keystream n c p ck seed s w len : octets 32 seed -> s < 2 ^ 64 -> w < 2 ^ 68 ->
  exists r r', rng_from_seed seed = Ok r
  /\ rng_run (rng_gen c p n) ck r [SetStream s; SetWordPos w; Fill len]
     = Ok ([Unit; Unit; Buf (map (fun i => cipher_ks (CChaCha Legacy n seed (rg_le 8 s)) (4 * w + N.of_nat i)) (seq 0 len))], r').
Proof.
  intros Hseed Hs Hw.
  destruct (C21_history n c p ck seed [SetStream s; SetWordPos w; Fill len] Hseed) as (r & r' & E & E').
  - repeat constructor; cbn [rop_ok]; [exact Hs|]. transitivity (2 ^ 68); [exact Hw | reflexivity].
  - right. repeat constructor; discriminate.
  - exists r, r'. split; [exact E|]. rewrite E'. apply (f_equal (fun l => Ok (l, r'))). cbn [rg_run rg_step fst fresh g_seed rg_move g_stream g_pos].
    unfold rg_take. cbn [rg_move g_seed g_stream g_pos]. rewrite (N.mod_small w (2 ^ 68)) by exact Hw. rewrite word_bytes.
    rewrite firstn_map_seq by lia. reflexivity.
Qed.
Print Assumptions C22_fill_is_keystream.
(** The generator and the [ChaCha20Legacy]-style cipher type give the same bytes. *)
Theorem C22_fill_equals_cipher n c p ck seed s len e : octets 32 seed -> s < 2 ^ 64 -> env_ok e ->
  N.of_nat len < 2 ^ e_usz e -> N.of_nat len <= 64 * (2 ^ 64 - 1) ->
  exists r r' out, rng_from_seed seed = Ok r
  /\ rng_run (rng_gen c p n) ck r [SetStream s; Fill len] = Ok ([Unit; Buf out], r')
  /\ cipher_run e (CChaCha Legacy n seed (rg_le 8 s)) [Apply (repeat 0 len)] = Ok [Bytes out].
Proof.
  intros Hseed Hs He Hlen Hlim.
  destruct (C21_history n c p ck seed [SetStream s; Fill len] Hseed) as (r & r' & E & E').
  - repeat constructor; cbn [rop_ok]; exact Hs.
  - right. repeat constructor; discriminate.
  - exists r, r', (map (fun i => cipher_ks (CChaCha Legacy n seed (rg_le 8 s)) (4 * 0 + N.of_nat i)) (seq 0 len)).
    split; [exact E|]. split.
    + rewrite E'. apply (f_equal (fun l => Ok (l, r'))). cbn [rg_run rg_step fst fresh g_seed rg_move g_stream g_pos].
      unfold rg_take. cbn [rg_move g_seed g_stream g_pos]. rewrite word_bytes. rewrite firstn_map_seq by lia. reflexivity.
    + assert (Hc : cipher_ok (CChaCha Legacy n seed (rg_le 8 s))).
      { cbn [cipher_ok]. split; [exact Hseed|]. rewrite rg_le_eq. split; [apply to_le_length | apply to_le_bytes]. }
      destruct (C13_chunking e (CChaCha Legacy n seed (rg_le 8 s)) [repeat 0 len] He Hc) as (outs & Eo & El & Ec).
      * repeat constructor. unfold short. rewrite repeat_length. exact Hlen.
      * unfold fits. cbn [last_byte concat]. rewrite app_nil_r, repeat_length. exact Hlim.
      * cbn [map] in Eo. rewrite Eo. destruct outs as [|o [|]]; try discriminate El. cbn [map concat] in *. do 3 f_equal.
        rewrite !app_nil_r in Ec. rewrite Ec. etransitivity; [apply (ks_xor_zeros _ 0 len)|]. reflexivity.
Qed.
Print Assumptions C22_fill_equals_cipher.

(** ** C23 *)
Theorem C23_refill n c p st : u32x16 st ->
  generate c p Legacy n st
  = (flat_map (fun i => let ctr := (nth 12 st 0 + 2 ^ 32 * nth 13 st 0 + N.of_nat i) mod 2 ^ 64 in
                        sp_core n (firstn 12 st ++ [ctr mod 2 ^ 32; ctr / 2 ^ 32] ++ skipn 14 st)) [0; 1; 2; 3]%nat,
     let ctr := (nth 12 st 0 + 2 ^ 32 * nth 13 st 0 + 4) mod 2 ^ 64 in
     firstn 12 st ++ [ctr mod 2 ^ 32; ctr / 2 ^ 32] ++ skipn 14 st).
Proof.
  intros H. assert (Hwf : wf16 st) by exact H. rewrite generate_ok by exact Hwf.
  assert (E : forall k, adv Legacy k st = let ctr := (nth 12 st 0 + 2 ^ 32 * nth 13 st 0 + k) mod 2 ^ 64 in
    firstn 12 st ++ [ctr mod 2 ^ 32; ctr / 2 ^ 32] ++ skipn 14 st).
  { intros k. destruct H as [Hl _]. unfold adv, ctr64, get. destr16 st Hl.
    cbn [nth upd firstn skipn app]. change (2 ^ 32) with M32. change (2 ^ 64) with M64. reflexivity. }
  f_equal; [|apply E]. unfold words_from. change (seq 0 4) with [0; 1; 2; 3]%nat.
  apply flat_map_ext. intros i. cbv zeta. rewrite run_rounds_spec by (apply adv_wf; exact Hwf). rewrite E. reflexivity.
Qed.
Print Assumptions C23_refill.
Theorem C23_refill_backend_independent n c p c' p' st : u32x16 st -> generate c p Legacy n st = generate c' p' Legacy n st.
Proof. intros H. rewrite !generate_ok by exact H. reflexivity. Qed.
Print Assumptions C23_refill_backend_independent.

Section Same.
  Context (G1 G2 : list N -> list N * list N).
  Context (Heq : forall st, wf16 st -> G1 st = G2 st) (Hwf : forall st, wf16 st -> wf16 (snd (G1 st))).
  Lemma same_refill b : wf16 (b_core b) -> refill G1 b = refill G2 b /\ wf16 (b_core (refill G1 b)).
  Proof.
    intros H. unfold refill. destruct (_ <=? _)%nat; [|auto]. rewrite <- Heq by exact H. pose proof (Hwf _ H) as Hs.
    destruct (G1 (b_core b)). auto.
  Qed.
  Lemma same_fill fuel : forall b len, wf16 (b_core b) -> fill_loop G1 fuel b len = fill_loop G2 fuel b len.
  Proof.
    induction fuel as [|fuel IH]; intros b len H; cbn [fill_loop]; [reflexivity|]. destruct (len =? 0)%nat; [reflexivity|].
    destruct (same_refill b H) as [E Hw]. rewrite <- E. cbv zeta. rewrite IH by exact Hw. reflexivity.
  Qed.
  Lemma same_skip b k : wf16 (b_core b) -> reset_and_skip G1 b k = reset_and_skip G2 b k.
  Proof. intros H. unfold reset_and_skip. destruct (k =? 0)%nat; [reflexivity|]. rewrite Heq by exact H. reflexivity. Qed.
  Lemma wf16_upd st i x : wf16 st -> W32 x -> wf16 (upd st i x).
  Proof. intros [Hl Hw] Hx. split; [rewrite upd_length; exact Hl | apply Forall_upd; assumption]. Qed.
  Lemma same_step ck r o : wf16 (b_core r) -> rng_step G1 ck r o = rng_step G2 ck r o.
  Proof.
    intros H. destruct o; cbn [rng_step]; try reflexivity.
    - unfold next_word. cbv zeta. rewrite (proj1 (same_refill r H)). reflexivity.
    - unfold next_u64. cbv zeta. rewrite (Heq _ H). reflexivity.
    - unfold fill_bytes. rewrite same_fill by exact H. reflexivity.
    - unfold rng_set_word_pos. cbv zeta. rewrite same_skip; [reflexivity|]. cbn [b_core].
      repeat apply wf16_upd; try exact H; unfold as_u32, W32; apply N.mod_lt; discriminate.
  Qed.
End Same.
Lemma rel_wf n r g : Rel n r g -> wf16 (b_core r).
Proof. intros (Hsl & Hsb & _ & P & _ & _ & c & Hc & _). rewrite Hc. apply K_wf; assumption. Qed.
Lemma gen_wf n c p st : wf16 st -> wf16 (snd (rng_gen c p n st)).
Proof. intros H. unfold rng_gen. rewrite generate_ok by exact H. apply adv_wf. exact H. Qed.
(** Same calls, same answers, same panics and same internal state in every build on every CPU. *)
Theorem C23_history n c p c' p' ck r h : reachable n r -> Forall rop_ok h ->
  rng_run (rng_gen c p n) ck r h = rng_run (rng_gen c' p' n) ck r h.
Proof.
  intros H Hok. revert r H. induction Hok as [|o h Ho Hok IH]; intros r H; cbn [rng_run]; [reflexivity|].
  rewrite <- (same_step (rng_gen c p n) (rng_gen c' p' n)).
  - destruct (rng_step (rng_gen c p n) ck r o) as [[x r1]|] eqn:E; [|reflexivity]. cbn [bind].
    rewrite IH; [reflexivity|]. apply (R_call n c p ck r o x r1); assumption.
  - intros st Hst. apply C23_refill_backend_independent. exact Hst.
  - intros st Hst. apply gen_wf. exact Hst.
  - apply (rel_wf n r (at_ r)). apply reach_rel. exact H.
Qed.
Print Assumptions C23_history.
Theorem C23_deserialize n c p c' p' a : octets 49 a ->
  deserialize_state (rng_gen c p n) a = deserialize_state (rng_gen c' p' n) a.
Proof.
  intros Ha. destruct (split49 a Ha) as (seed & st & pos & -> & Hsl & Hsb & Htl & Htb & Hpl & Hpb). unfold deserialize_state. cbv zeta.
  rewrite firstn_app_len by exact Hsl. rewrite (skipn_app_len seed) by exact Hsl. rewrite firstn_app_len by exact Htl.
  rewrite Hsl, Htl. destruct (assert_ _); [|reflexivity]. cbn [bind]. rewrite new_internal_ok by assumption. cbn [bind].
  unfold rng_set_word_pos. cbv zeta. apply same_skip; [intros s Hs; apply C23_refill_backend_independent; exact Hs|].
  cbn [b_core b_new]. repeat apply wf16_upd; try (unfold as_u32, W32; apply N.mod_lt; discriminate). apply mk_state_wf; assumption.
Qed.
Print Assumptions C23_deserialize.

(** ** C24 *)
Theorem C24_accounting n c p ck r ds : reachable n r ->
  exists xs r', rng_run (rng_gen c p n) ck r (map draw_op ds) = Ok (xs, r')
  /\ get_word_pos r' = (get_word_pos r + N.of_nat (total ds)) mod 2 ^ 68.
Proof.
  intros H. destruct (run_at n c p ck r _ H (draws_ok ds) (or_intror (draws_no_gbp ds))) as (r' & E & Ea).
  exists (fst (rg_run n (at_ r) (map draw_op ds))), r'. split; [exact E|]. rewrite (proj2 (draws_carve n ds _)) in Ea.
  apply (f_equal g_pos) in Ea. cbn [at_ g_pos] in Ea. rewrite Ea. destruct ds as [|d ds]; [|reflexivity].
  cbn [total at_ g_pos]. rewrite N.add_0_r. symmetry. apply N.mod_small.
  destruct (reach_rel n r H) as (_ & _ & _ & P & Eg & _). apply (f_equal g_pos) in Eg. cbn [at_ gat g_pos] in Eg. rewrite Eg.
  apply N.mod_lt. discriminate.
Qed.
Print Assumptions C24_accounting.
(** Set, then count: any number of words after [set_word_pos]. *)
Theorem C24_set n c p ck r w ds : reachable n r -> w < 2 ^ 128 ->
  exists r', rng_run (rng_gen c p n) ck r (SetWordPos w :: GetWordPos :: map draw_op ds ++ [GetWordPos])
    = Ok (Unit :: Num (w mod 2 ^ 68)
          :: carve ds (map (fun i => rg_word n (get_seed r) (get_stream r) ((w + N.of_nat i) mod 2 ^ 68)) (seq 0 (total ds)))
          ++ [Num ((w + N.of_nat (total ds)) mod 2 ^ 68)], r').
Proof.
  intros H Hw.
  assert (Hok : Forall rop_ok (SetWordPos w :: GetWordPos :: map draw_op ds ++ [GetWordPos])).
  { constructor; [exact Hw|]. constructor; [exact I|]. apply Forall_app. split; [apply draws_ok | repeat constructor]. }
  assert (Hn : no_gbp (SetWordPos w :: GetWordPos :: map draw_op ds ++ [GetWordPos])).
  { constructor; [discriminate|]. constructor; [discriminate|]. apply Forall_app. split; [apply draws_no_gbp | repeat constructor; discriminate]. }
  destruct (run_at n c p ck r _ H Hok (or_intror Hn)) as (r' & E & _). exists r'. rewrite E. clear E.
  apply (f_equal (fun l => Ok (l, r'))). cbn [rg_run rg_step]. set (g := rg_move (at_ r) w).
  assert (Happ : forall h1 h2 g, fst (rg_run n g (h1 ++ h2)) = fst (rg_run n g h1) ++ fst (rg_run n (snd (rg_run n g h1)) h2)).
  { induction h1 as [|o h1 IH]; intros h2 g0; cbn [app rg_run]; [reflexivity|].
    destruct (rg_step n g0 o) as [x g1]. specialize (IH h2 g1). destruct (rg_run n g1 (h1 ++ h2)). destruct (rg_run n g1 h1) as [ys g2].
    cbn [fst snd] in *. rewrite IH. reflexivity. }
  specialize (Happ (map draw_op ds) [GetWordPos] g). destruct (rg_run n g (map draw_op ds ++ [GetWordPos])) as [xs g'].
  cbn [fst] in *. rewrite Happ. destruct (draws_carve n ds g) as [-> ->]. f_equal. f_equal. apply (f_equal2 (@app rret)).
  - f_equal. apply map_ext. intros i. unfold g. cbn [rg_move at_ g_seed g_stream g_pos]. rewrite word_mod.
    rewrite <- (N.add_0_r (_ mod _)). rewrite word_mod, N.add_0_r. reflexivity.
  - cbn [rg_run rg_step fst]. do 2 f_equal. unfold g. destruct ds as [|d ds]; cbn [rg_move g_pos].
    + cbn [total]. rewrite N.add_0_r. reflexivity.
    + apply N.add_mod_idemp_l. discriminate.
Qed.
Print Assumptions C24_set.
(** The upper 60 bits are ignored: the answers to all later calls are the same. *)
Theorem C24_upper_bits_ignored n c p ck r w h :
  rng_run (rng_gen c p n) ck r (SetWordPos w :: h) = rng_run (rng_gen c p n) ck r (SetWordPos (w mod 2 ^ 68) :: h).
Proof.
  cbn [rng_run rng_step].
  assert (E : rng_set_word_pos (rng_gen c p n) r w = rng_set_word_pos (rng_gen c p n) r (w mod 2 ^ 68)); [|rewrite E; reflexivity].
  unfold rng_set_word_pos, BLOCK_WORDS, as_u32. cbv zeta. rewrite !N.shiftr_div_pow2. change (2 ^ 32) with M32. change (2 ^ 68) with (16 * M64).
  replace (w mod (16 * M64) mod 16) with (w mod 16) by lia.
  replace (w mod (16 * M64) / 16 mod M32) with (w / 16 mod M32) by lia.
  replace (w mod (16 * M64) / 16 / M32 mod M32) with (w / 16 / M32 mod M32) by lia. reflexivity.
Qed.
Print Assumptions C24_upper_bits_ignored.
(** After 2^68 words (or a multiple) the generator compares equal to what it was. *)
Theorem C24_cycle n c p ck r ds k : reachable n r -> N.of_nat (total ds) = k * 2 ^ 68 ->
  exists xs r', rng_run (rng_gen c p n) ck r (map draw_op ds) = Ok (xs, r') /\ rng_eq r r' = true.
Proof.
  intros H Hk. destruct (rel_run c p ck n _ r _ (reach_rel n r H) (draws_ok ds) (or_intror (draws_no_gbp ds))) as (r' & E & HR).
  eexists _, r'. split; [exact E|]. apply (rng_eq_spec c p n r (at_ r) r' _ (reach_rel n r H) HR).
  rewrite (proj2 (draws_carve n ds _)). destruct ds as [|d ds]; [reflexivity|]. rewrite Hk. unfold rg_move.
  rewrite N.mod_add by discriminate.
  destruct (reach_rel n r H) as (_ & _ & _ & P & Eg & _). apply (f_equal g_pos) in Eg. cbn [at_ gat g_pos] in Eg |- *.
  rewrite Eg, N.mod_mod by discriminate. rewrite <- Eg. reflexivity.
Qed.
Print Assumptions C24_cycle.

(** ** C25 *)
Theorem C25_set n c p ck r b : reachable n r -> b < 2 ^ 64 ->
  exists r', rng_run (rng_gen c p n) ck r [SetBlockPos b; GetBlockPos; GetWordPos; NextU32]
    = Ok ([Unit; Num b; Num (16 * b); Num (rg_word n (get_seed r) (get_stream r) (16 * b))], r').
Proof.
  intros H Hb. pose proof (reach_rel n r H) as HR. destruct HR as (Hsl & Hsb & Hs & P & Eg & HR).
  destruct (set_block_pos_ok c p n _ Hsl Hsb r _ P b HR Hb) as (r1 & E1 & HR1).
  assert (Hidx : word_offset r1 = 0%nat).
  { unfold rng_set_block_pos, reset_and_skip in E1. cbn [Nat.eqb bind] in E1. injection E1 as <-. reflexivity. }
  cbn [rng_run rng_step]. rewrite E1. cbn [bind]. rewrite (get_block_pos_ok c p n _ Hsl Hsb ck r1 _ _ HR1), Hidx.
  cbn [Nat.eqb negb andb]. replace (if ck then false else false) with false by (destruct ck; reflexivity). cbn [bind].
  rewrite (get_word_pos_ok c p n _ Hsl Hsb r1 _ _ HR1).
  destruct (next_word_ok c p n _ Hsl Hsb r1 _ _ HR1) as (r2 & E2 & _). rewrite E2. exists r2. cbn [bind].
  change (2 ^ 64) with M64 in Hb. change (2 ^ 68) with (16 * M64). rewrite (N.mod_small (16 * b)) by lia.
  replace (16 * b / 16) with b by lia. reflexivity.
Qed.
Print Assumptions C25_set.
Theorem C25_block_of_next_word n r : reachable n r -> rng_get_block_pos false r = Ok (get_word_pos r / 16).
Proof.
  intros H. destruct (reach_rel n r H) as (Hsl & Hsb & Hs & P & Eg & HR).
  rewrite (get_block_pos_ok cf0 pc0 n _ Hsl Hsb false r _ P HR). rewrite (get_word_pos_ok cf0 pc0 n _ Hsl Hsb r _ P HR). reflexivity.
Qed.
Print Assumptions C25_block_of_next_word.
Theorem C25_history n c p r ds : reachable n r ->
  exists xs r', rng_run (rng_gen c p n) false r (map draw_op ds ++ [GetBlockPos]) = Ok (xs ++ [Num (((get_word_pos r + N.of_nat (total ds)) mod 2 ^ 68) / 16)], r').
Proof.
  intros H. destruct (C24_accounting n c p false r ds H) as (xs & r1 & E & Ep). exists xs, r1.
  assert (Hr1 : reachable n r1) by (apply (reach_run n c p false (map draw_op ds) r xs r1 H (draws_ok ds) E)).
  assert (X : forall h r xs, rng_run (rng_gen c p n) false r h = Ok (xs, r1) ->
    rng_run (rng_gen c p n) false r (h ++ [GetBlockPos]) = Ok (xs ++ [Num ((get_word_pos r1) / 16)], r1)).
  { induction h as [|o h IH]; intros r0 ys E0; cbn [app rng_run] in *.
    - injection E0 as <- <-. cbn [rng_step]. rewrite (C25_block_of_next_word n r0 Hr1). reflexivity.
    - destruct (rng_step (rng_gen c p n) false r0 o) as [[x r2]|]; [|discriminate E0]. cbn [bind] in *.
      destruct (rng_run (rng_gen c p n) false r2 h) as [[zs r3]|] eqn:E3; [|discriminate E0]. cbn [bind] in E0. injection E0 as <- ->.
      rewrite (IH r2 zs E3). reflexivity. }
  rewrite (X _ _ _ E), Ep. reflexivity.
Qed.
Print Assumptions C25_history.

(** ** C26 *)
(** FINDING: with overflow checks [get_block_pos] panics when the buffer was filled across
    the wrap of the block counter: here at word 1 of the last block, and 20 words later,
    at word 5 of block 0. *)
Theorem C26_get_block_pos_refuted :
  exists n c p seed r, octets 32 seed /\ rng_from_seed seed = Ok r
  /\ rng_run (rng_gen c p n) true r [SetWordPos (2 ^ 68 - 15); GetBlockPos] = Panic
  /\ rng_run (rng_gen c p n) true r [SetWordPos (2 ^ 68 - 15); Fill 80; GetBlockPos] = Panic.
Proof.
  exists 4%nat, cf0, pc0, ex_key. eexists. split; [checks|]. split; [vm_compute; reflexivity|]. split; vm_compute; reflexivity.
Qed.
Print Assumptions C26_get_block_pos_refuted.
(** Exactly when it panics, and that it is otherwise right. *)
Theorem C26_exact n r : reachable n r ->
  rng_get_block_pos true r
  = if negb (word_offset r =? 0)%nat && (nth 12 (b_core r) 0 + 2 ^ 32 * nth 13 (b_core r) 0 <? 4) then Panic
    else Ok (get_word_pos r / 16).
Proof.
  intros H. pose proof (reach_rel n r H) as HR. destruct (rel_wf n r _ HR) as [Hl Hw].
  destruct HR as (Hsl & Hsb & Hs & P & Eg & HR).
  rewrite (get_block_pos_ok cf0 pc0 n _ Hsl Hsb true r _ P HR). rewrite (get_word_pos_ok cf0 pc0 n _ Hsl Hsb r _ P HR).
  replace (get_block_pos Legacy (b_core r)) with (nth 12 (b_core r) 0 + 2 ^ 32 * nth 13 (b_core r) 0); [reflexivity|].
  unfold get_block_pos. rewrite lor_shift_add.
  - unfold get. lia.
  - rewrite <- M32_pow. apply (Forall_get W32 _ _ Hw). reflexivity.
Qed.
Print Assumptions C26_exact.
(** Full statement: no history panics.  Proved here: none does whose draws do not pass
    word 2^68 and which asks for the block position at word 2^68 - 64 at the latest
    ([rg_low]); nor any history in builds without overflow checks.  Missing: the histories
    of [C26_get_block_pos_refuted]. *)
Theorem C26_get_block_pos_partial n c p ck seed h : octets 32 seed -> Forall rop_ok h ->
  ck = false \/ rg_low n (fresh seed) h ->
  exists r r', rng_from_seed seed = Ok r /\ rng_run (rng_gen c p n) ck r h = Ok (fst (rg_run n (fresh seed) h), r').
Proof.
  intros [Hl Hb] Hok [Hck|Hlow].
  - destruct (C21_history n c p ck seed h (conj Hl Hb) Hok (or_introl Hck)) as (r & r' & E). eauto.
  - destruct (relx_from_seed c p n seed Hl Hb) as (r & E & HX). exists r.
    destruct (low_run c p ck n h r _ HX Hok Hlow) as (r' & E'). exists r'. auto.
Qed.
Print Assumptions C26_get_block_pos_partial.

(** ** C27 *)
Theorem C27_set_stream n c p ck r s h : reachable n r -> s < 2 ^ 64 -> Forall rop_ok h -> ck = false \/ no_gbp h ->
  exists r', rng_run (rng_gen c p n) ck r (SetStream s :: GetStream :: GetWordPos :: GetSeed :: h)
    = Ok (Unit :: Num s :: Num 0 :: Buf (get_seed r) :: fst (rg_run n {| g_seed := get_seed r; g_stream := s; g_pos := 0 |} h), r').
Proof.
  intros H Hs Hok Hck.
  destruct (run_at n c p ck r (SetStream s :: GetStream :: GetWordPos :: GetSeed :: h) H) as (r' & E & _).
  - constructor; [exact Hs|]. repeat (constructor; [exact I|]). exact Hok.
  - destruct Hck as [Hck|Hck]; [left; exact Hck|right]. repeat (constructor; [discriminate|]). exact Hck.
  - exists r'. rewrite E. apply (f_equal (fun l => Ok (l, r'))). cbn [rg_run rg_step at_ g_seed g_stream g_pos].
    destruct (rg_run n {| g_seed := get_seed r; g_stream := s; g_pos := 0 |} h). reflexivity.
Qed.
Print Assumptions C27_set_stream.
(** Nothing of the past is left: as if on a new generator with that seed. *)
Theorem C27_history_erased n c p ck r s h : reachable n r -> s < 2 ^ 64 -> Forall rop_ok h -> ck = false \/ no_gbp h ->
  exists r0 r1 r2 xs, rng_from_seed (get_seed r) = Ok r0
  /\ rng_run (rng_gen c p n) ck r (SetStream s :: h) = Ok (xs, r1) /\ rng_run (rng_gen c p n) ck r0 (SetStream s :: h) = Ok (xs, r2).
Proof.
  intros H Hs Hok Hck.
  assert (Hseed : octets 32 (get_seed r)) by (destruct (reach_rel n r H) as (Hsl & Hsb & _); split; assumption).
  assert (Hok' : Forall rop_ok (SetStream s :: h)) by (constructor; assumption).
  assert (Hck' : ck = false \/ no_gbp (SetStream s :: h)) by (destruct Hck; [left|right; constructor; [discriminate|]]; assumption).
  destruct (run_at n c p ck r _ H Hok' Hck') as (r1 & E1 & _).
  destruct (C21_history n c p ck (get_seed r) _ Hseed Hok' Hck') as (r0 & r2 & E0 & E2).
  exists r0, r1, r2, (fst (rg_run n (at_ r) (SetStream s :: h))). split; [exact E0|]. split; [exact E1 | exact E2].
Qed.
Print Assumptions C27_history_erased.

(** ** C28 *)
Theorem C28_seed n c p ck seed r h xs r' : octets 32 seed -> rng_from_seed seed = Ok r -> Forall rop_ok h ->
  rng_run (rng_gen c p n) ck r h = Ok (xs, r') -> get_seed r' = seed.
Proof.
  intros [Hl Hb] E Hok E'. destruct (rel_from_seed c p n seed Hl Hb) as (r0 & E0 & HR). rewrite E in E0. injection E0 as <-.
  destruct (rel_run_ok c p ck n h r _ xs r' HR Hok E') as [_ HR']. destruct (rel_get c p n r' _ HR') as (-> & _).
  assert (X : forall h g, g_seed (snd (rg_run n g h)) = g_seed g).
  { clear. induction h as [|o h IH]; intros g; cbn [rg_run]; [reflexivity|].
    assert (Y : g_seed (snd (rg_step n g o)) = g_seed g) by (destruct o; reflexivity).
    destruct (rg_step n g o) as [x g1]. specialize (IH g1). destruct (rg_run n g1 h) as [ys g2]. cbn [snd] in *. congruence. }
  apply X.
Qed.
Print Assumptions C28_seed.

(** ** C29 *)
Lemma app_inj_len {A} (a b c d : list A) : a ++ b = c ++ d -> List.length a = List.length c -> a = c /\ b = d.
Proof.
  revert c. induction a as [|x a IH]; intros [|y c] E Hl; try discriminate Hl; [auto|]. injection E as -> E. injection Hl as Hl.
  destruct (IH c E Hl) as [-> ->]. auto.
Qed.
Lemma bytes_rg_le k x : bytes (rg_le k x).
Proof. rewrite rg_le_eq. apply to_le_bytes. Qed.
Lemma rg_le_length k x : List.length (rg_le k x) = k.
Proof. rewrite rg_le_eq. apply to_le_length. Qed.
Lemma rg_int_le k x : x < 256 ^ N.of_nat k -> rg_int (rg_le k x) = x.
Proof. intros H. rewrite rg_int_eq, rg_le_eq, from_to_le. apply N.mod_small. exact H. Qed.
Lemma reach_pos n r : reachable n r -> get_word_pos r < 2 ^ 68.
Proof.
  intros H. destruct (reach_rel n r H) as (_ & _ & _ & P & Eg & _). apply (f_equal g_pos) in Eg. cbn [at_ gat g_pos] in Eg. rewrite Eg.
  apply N.mod_lt. discriminate.
Qed.
(** Layout. *)
Theorem C29_layout n ck r : reachable n r ->
  serialize_state ck r = Ok (get_seed r ++ rg_le 8 (get_stream r) ++ rg_le 9 (get_word_pos r))
  /\ octets 49 (get_seed r ++ rg_le 8 (get_stream r) ++ rg_le 9 (get_word_pos r)).
Proof.
  intros H. pose proof (reach_rel n r H) as HR. split; [apply (rel_serialize cf0 pc0 ck n r _ HR)|].
  destruct HR as (Hsl & Hsb & _). cbn [at_ g_seed] in *. split.
  - rewrite !app_length, !rg_le_length, Hsl. reflexivity.
  - apply Forall_app. split; [exact Hsb|]. apply Forall_app. split; apply bytes_rg_le.
Qed.
Print Assumptions C29_layout.
(** Round trip: the copy compares equal, and all later calls get the same answers, also
    when the copy lives in another build. *)
Theorem C29_round_trip n c p c' p' ck ck' r : reachable n r ->
  exists a r', serialize_state ck r = Ok a /\ deserialize_state (rng_gen c p n) a = Ok r' /\ rng_eq r r' = true
  /\ forall h, Forall rop_ok h -> ck' = false \/ no_gbp h ->
       exists xs r1 r2, rng_run (rng_gen c' p' n) ck' r h = Ok (xs, r1) /\ rng_run (rng_gen c p n) ck' r' h = Ok (xs, r2) /\ rng_eq r1 r2 = true.
Proof.
  intros H. destruct (C29_layout n ck r H) as [E Ho]. pose proof (reach_rel n r H) as HR.
  destruct HR as (Hsl & Hsb & Hs & HR). cbn [at_ g_seed g_stream] in *.
  destruct (rel_deserialize c p n (get_seed r) (rg_le 8 (get_stream r)) (rg_le 9 (get_word_pos r)) Hsl Hsb (rg_le_length _ _) (bytes_rg_le _ _) (rg_le_length _ _))
    as (r' & E' & HR').
  rewrite !rg_int_le in HR' by first [exact Hs | transitivity (2 ^ 68); [apply (reach_pos n r H) | reflexivity]].
  rewrite N.mod_small in HR' by apply (reach_pos n r H). fold (at_ r) in HR'.
  eexists _, r'. split; [exact E|]. split; [exact E'|]. pose proof (reach_rel n r H) as HRr.
  split; [apply (rng_eq_spec c p n r (at_ r) r' (at_ r) HRr HR'); reflexivity|].
  intros h Hok Hck. destruct (rel_run c' p' ck' n h r _ HRr Hok Hck) as (r1 & E1 & HR1).
  destruct (rel_run c p ck' n h r' _ HR' Hok Hck) as (r2 & E2 & HR2). eexists _, r1, r2.
  split; [exact E1|]. split; [exact E2|]. apply (rng_eq_spec c p n r1 _ r2 _ HR1 HR2). reflexivity.
Qed.
Print Assumptions C29_round_trip.
Theorem C29_injective n ck ck' r r' : reachable n r -> reachable n r' -> serialize_state ck r = serialize_state ck' r' ->
  get_seed r = get_seed r' /\ get_stream r = get_stream r' /\ get_word_pos r = get_word_pos r'.
Proof.
  intros H H' E. destruct (C29_layout n ck r H) as [E1 _]. destruct (C29_layout n ck' r' H') as [E2 _]. rewrite E1, E2 in E.
  pose proof (reach_rel n r H) as (Hsl & _ & Hs & _). pose proof (reach_rel n r' H') as (Hsl' & _ & Hs' & _). cbn [at_ g_seed g_stream] in *.
  assert (E' : get_seed r ++ rg_le 8 (get_stream r) ++ rg_le 9 (get_word_pos r) = get_seed r' ++ rg_le 8 (get_stream r') ++ rg_le 9 (get_word_pos r')) by congruence.
  apply app_inj_len in E' as [Ea E']; [|congruence]. apply app_inj_len in E' as [Eb Ec]; [|rewrite !rg_le_length; reflexivity].
  split; [exact Ea|]. split.
  - rewrite <- (rg_int_le 8 (get_stream r)), <- (rg_int_le 8 (get_stream r')) by assumption. congruence.
  - rewrite <- (rg_int_le 9 (get_word_pos r)), <- (rg_int_le 9 (get_word_pos r'))
      by (transitivity (2 ^ 68); [apply (reach_pos n); assumption | reflexivity]). congruence.
Qed.
Print Assumptions C29_injective.
(** Any 49 bytes: the top four bits of the last byte are cleared, the rest comes back. *)
Theorem C29_any_array n c p ck a : octets 49 a ->
  exists r, deserialize_state (rng_gen c p n) a = Ok r /\ serialize_state ck r = Ok (firstn 48 a ++ [nth 48 a 0 mod 16]).
Proof.
  intros Ha. destruct (split49 a Ha) as (seed & st & pos & -> & Hsl & Hsb & Htl & Htb & Hpl & Hpb).
  destruct (rel_deserialize c p n seed st pos Hsl Hsb Htl Htb Hpl) as (r & E & HR). exists r. split; [exact E|].
  rewrite (rel_serialize c p ck n r _ HR). cbn [g_seed g_stream g_pos]. f_equal.
  rewrite !rg_le_eq, !rg_int_eq.
  replace (to_le 8 (from_le st)) with st by (rewrite <- Htl; symmetry; apply to_from_le; exact Htb).
  destruct pos as [|b0 [|b1 [|b2 [|b3 [|b4 [|b5 [|b6 [|b7 [|b8 [|]]]]]]]]]]; try discriminate Hpl. clear Hpl.
  assert (El : from_le [b0; b1; b2; b3; b4; b5; b6; b7; b8] mod 2 ^ 68 = from_le [b0; b1; b2; b3; b4; b5; b6; b7; b8 mod 16]).
  { change [b0; b1; b2; b3; b4; b5; b6; b7; b8] with ([b0; b1; b2; b3; b4; b5; b6; b7] ++ [b8]).
    change [b0; b1; b2; b3; b4; b5; b6; b7; b8 mod 16] with ([b0; b1; b2; b3; b4; b5; b6; b7] ++ [b8 mod 16]).
    assert (Ha8 : bytes [b0; b1; b2; b3; b4; b5; b6; b7]) by (apply (Forall_app W8 _ [b8]); exact Hpb).
    pose proof (from_le_lt _ Ha8) as Hlt. change (256 ^ N.of_nat (List.length [b0; b1; b2; b3; b4; b5; b6; b7])) with M64 in Hlt.
    assert (X : forall l x, List.length l = 8%nat -> from_le (l ++ [x]) = from_le l + M64 * x).
    { intros l x Hl8. destruct l as [|c0 [|c1 [|c2 [|c3 [|c4 [|c5 [|c6 [|c7 [|]]]]]]]]]; try discriminate Hl8. cbn [app from_le]. lia. }
    rewrite !X by reflexivity. remember (from_le [b0; b1; b2; b3; b4; b5; b6; b7]) as y. clear Heqy. change (2 ^ 68) with (16 * M64). lia. }
  rewrite rg_int_eq, El. change 9%nat with (List.length [b0; b1; b2; b3; b4; b5; b6; b7; b8 mod 16]) at 1. rewrite to_from_le.
  - rewrite !app_assoc. change [b0; b1; b2; b3; b4; b5; b6; b7; b8 mod 16] with ([b0; b1; b2; b3; b4; b5; b6; b7] ++ [b8 mod 16]).
    change [b0; b1; b2; b3; b4; b5; b6; b7; b8] with ([b0; b1; b2; b3; b4; b5; b6; b7] ++ [b8]). rewrite !app_assoc.
    rewrite firstn_app_len by (rewrite !app_length, Hsl, Htl; reflexivity). f_equal. f_equal. f_equal.
    rewrite app_nth2 by (rewrite !app_length, Hsl, Htl; cbn; lia). rewrite !app_length, Hsl, Htl. reflexivity.
  - change [b0; b1; b2; b3; b4; b5; b6; b7; b8 mod 16] with ([b0; b1; b2; b3; b4; b5; b6; b7] ++ [b8 mod 16]).
    apply Forall_app. split; [apply (Forall_app W8 _ [b8]); exact Hpb|]. constructor; [|constructor]. unfold W8. lia.
Qed.
Print Assumptions C29_any_array.

(** ** C30 *)
Theorem C30_equal_futures n c p c' p' ck r r' : reachable n r -> reachable n r' -> rng_eq r r' = true ->
  forall h, Forall rop_ok h -> ck = false \/ no_gbp h ->
  exists xs r1 r2, rng_run (rng_gen c p n) ck r h = Ok (xs, r1) /\ rng_run (rng_gen c' p' n) ck r' h = Ok (xs, r2) /\ rng_eq r1 r2 = true.
Proof.
  intros H H' E h Hok Hck. pose proof (reach_rel n r H) as HR. pose proof (reach_rel n r' H') as HR'.
  apply (rng_eq_spec c p n r _ r' _ HR HR') in E. rewrite <- E in HR'.
  destruct (rel_run c p ck n h r _ HR Hok Hck) as (r1 & E1 & HR1). destruct (rel_run c' p' ck n h r' _ HR' Hok Hck) as (r2 & E2 & HR2).
  eexists _, r1, r2. split; [exact E1|]. split; [exact E2|]. apply (rng_eq_spec c p n r1 _ r2 _ HR1 HR2). reflexivity.
Qed.
Print Assumptions C30_equal_futures.
(** [==] is exactly: same seed, stream and position; so it is an equivalence. *)
Theorem C30_equality n r r' : reachable n r -> reachable n r' -> (rng_eq r r' = true <-> at_ r = at_ r').
Proof. intros H H'. apply (rng_eq_spec cf0 pc0 n); apply reach_rel; assumption. Qed.
Print Assumptions C30_equality.
(** FINDING (consequence of C26): in builds with overflow checks two equal generators can
    differ, one answering [get_block_pos], the other panicking. *)
Theorem C30_equal_futures_refuted : exists n r r',
  reachable n r /\ reachable n r' /\ rng_eq r r' = true
  /\ rng_get_block_pos true r = Ok 0 /\ rng_get_block_pos true r' = Panic.
Proof.
  pose (run h := match rng_from_seed ex_key with
                 | Ok r => match rng_run (rng_gen cf0 pc0 4) true r h with Ok (_, r') => r' | Panic => r end
                 | Panic => b_new [] end).
  exists 4%nat, (run [NextU32]), (run [SetWordPos (2 ^ 68 - 15); Fill 64]).
  assert (Hseed : octets 32 ex_key) by checks.
  assert (Hrun : forall h, Forall rop_ok h -> no_gbp h -> reachable 4 (run h)).
  { intros h Hok Hn. unfold run. destruct (C21_history 4 cf0 pc0 true ex_key h Hseed Hok (or_intror Hn)) as (r & r' & E & E').
    rewrite E, E'. apply (reach_run 4 cf0 pc0 true h r (fst (rg_run 4 (fresh ex_key) h)) r'); [apply (R_seed 4 ex_key r Hseed E) | exact Hok | exact E']. }
  split; [apply Hrun; repeat constructor; discriminate|].
  split; [apply Hrun; repeat constructor; discriminate|].
  split; [vm_compute; reflexivity|]. split; vm_compute; reflexivity.
Qed.
Print Assumptions C30_equal_futures_refuted.

(** ** C31 *)
(** FINDING: [ChaChaCore<R, Ietf>::from_seed] panics for every seed: an 8-byte nonce where
    the IETF layout has 12 bytes. *)
Theorem C31_from_seed_refuted seed : octets 32 seed -> core_from_seed Ietf seed = Panic.
Proof. intros _. reflexivity. Qed.
Print Assumptions C31_from_seed_refuted.
(** FINDING: on an IETF core the refill of the portable backend carries into word 13 where
    NEON wraps within word 12; the output then differs. *)
Theorem C31_generator_refuted : exists n c p c' p' st, u32x16 st
  /\ fst (generate c p Ietf n st) <> fst (generate c' p' Ietf n st) /\ snd (generate c p Ietf n st) <> snd (generate c' p' Ietf n st).
Proof.
  exists 4%nat, cf0, pc0, {| c_target := Aarch64Neon; c_backend := NoCfg; c_avx512 := false |}, pc0,
    (mk_state Ietf ex_key ex_nonce12 (2 ^ 32 - 1)).
  split; [checks|]. split; vm_compute; discriminate.
Qed.
Print Assumptions C31_generator_refuted.
Lemma adv_same v k st : wf16 st -> get st 12 + k < M32 -> adv v k st = adv Legacy k st.
Proof.
  intros [Hl Hw] Hk. destruct v; [|reflexivity]. pose proof (Forall_get W32 _ 13%nat Hw eq_refl) as H13. unfold W32 in H13.
  pose proof (Forall_get W32 _ 12%nat Hw eq_refl) as H12. unfold W32 in H12.
  unfold adv, ctr64. cbv zeta.
  set (x := get st 12) in *. set (y := get st 13) in *.
  replace ((x + M32 * y + k) mod M64 mod M32) with ((x + k) mod M32) by lia.
  replace ((x + M32 * y + k) mod M64 / M32) with y by lia.
  unfold x, y, get. clear - Hl. destr16 st Hl. reflexivity.
Qed.
Lemma sse2_rng_any v n st : wf16 st -> sse2_rng_inner v n st = (words_from v n 4 st, adv Legacy 4 st).
Proof.
  intros H. assert (Hl : List.length st = 16%nat) by apply H.
  pose proof (f_equal snd (sse2_rng_legacy n st H)) as E. unfold sse2_rng_inner in *. cbv zeta in *. cbn [snd] in E. rewrite E. clear E.
  rewrite sse2_load_rows, sse2_rounds_eq by assumption. f_equal.
  unfold words_from. apply flat_map_ext_in'. intros i Hi. apply in_seq in Hi.
  rewrite nth_map_seq by (unfold sse2_PAR_BLOCKS in *; lia).
  cbn [flat_map seq nth rows]. rewrite app_nil_r. apply rows_words.
  apply run_rounds_length. rewrite adv_length. assumption.
Qed.
(** Full statement: for both variants [from_seed] never panics and the generator does not
    depend on the backend.  Proved here: both for the 64-bit variant; for the IETF variant
    backend independence while the 32-bit counter does not wrap in the refill.  Missing:
    the two refuted cases above. *)
Theorem C31_core_partial :
  (forall seed, octets 32 seed -> exists st, core_from_seed Legacy seed = Ok st
     /\ st = sp_djb_state seed 0 (repeat 0 8))
  /\ (forall n c p c' p' st, u32x16 st -> generate c p Legacy n st = generate c' p' Legacy n st)
  /\ (forall n c p c' p' st, u32x16 st -> nth 12 st 0 + 4 < 2 ^ 32 -> generate c p Ietf n st = generate c' p' Ietf n st).
Proof.
  split; [|split].
  - intros seed [Hl Hb]. eexists. split; [unfold core_from_seed; apply new_internal_ok; [exact Hl | reflexivity]|].
    apply (mk_state_spec Legacy); [exact Hl | reflexivity].
  - intros. apply C23_refill_backend_independent. assumption.
  - intros n c p c' p' st H H12. rewrite <- M32_pow in H12.
    assert (X : forall c p, generate c p Ietf n st = (words_from Legacy n 4 st, adv Legacy 4 st)); [|rewrite !X; reflexivity].
    intros c0 p0. assert (Hwf : wf16 st) by exact H. unfold generate. cbv zeta.
    assert (Ew : words_from Ietf n 4 st = words_from Legacy n 4 st).
    { unfold words_from. apply flat_map_ext_in'. intros i Hi. apply in_seq in Hi. rewrite adv_same; [reflexivity | exact Hwf |]. unfold get. lia. }
    rewrite soft_rng_eq, avx2_rng_legacy, sse2_rng_any, neon_rng_eq by assumption. rewrite Ew, (adv_same Ietf 4) by assumption.
    destruct (c_backend c0), (c_target c0), (has_avx2 p0), (has_sse2 p0); reflexivity.
Qed.
Print Assumptions C31_core_partial.

(** ** The hypotheses are met by concrete, non-trivial cases *)
Definition ex_run (h : list rop) : rng :=
  match rng_from_seed ex_key with
  | Ok r => match rng_run (rng_gen cf0 pc0 4) true r h with Ok (_, r') => r' | Panic => r end
  | Panic => b_new []
  end.
Lemma ex_run_reachable h : Forall rop_ok h -> no_gbp h -> reachable 4 (ex_run h).
Proof.
  intros Hok Hn. assert (Hseed : octets 32 ex_key) by checks.
  unfold ex_run. destruct (C21_history 4 cf0 pc0 true ex_key h Hseed Hok (or_intror Hn)) as (r & r' & E & E').
  rewrite E, E'. apply (reach_run 4 cf0 pc0 true h r (fst (rg_run 4 (fresh ex_key) h)) r'); [apply (R_seed 4 ex_key r Hseed E) | exact Hok | exact E'].
Qed.
(** A used generator: 90 words into stream 5, so 26 words into its second buffer. *)
Definition ex_rng : rng := ex_run [NextU64; SetStream 5; Fill 341; NextU64; NextU64].
Example ex_rng_reachable : reachable 4 ex_rng.
Proof. apply ex_run_reachable; repeat constructor; discriminate. Qed.
Example ex_rng_state : get_word_pos ex_rng = 90 /\ get_stream ex_rng = 5 /\ b_idx ex_rng = 26%nat /\ get_seed ex_rng = ex_key.
Proof. vm_compute. auto. Qed.
Definition ex_draws := [DU32; DFill 250; DU64; DFill 3; DU64].
Example C21_draws_satisfiable : octets 32 ex_key /\ total ex_draws = 69%nat.
Proof. split; [checks | reflexivity]. Qed.
(** The [DU64] of [ex_draws] takes words 64 and 65; with one more word drawn first it
    straddles the buffer boundary. *)
Example C21_straddle :
  match rng_from_seed ex_key with
  | Ok r => match rng_run (rng_gen cf0 pc0 1) true r [Fill 250; NextU64; SetWordPos 63; NextU32; NextU32] with
            | Ok ([_; Num x; _; Num lo; Num hi], _) => x = lo + 2 ^ 32 * hi
            | _ => False end
  | Panic => False end.
Proof. vm_compute. reflexivity. Qed.
Example C21_history_satisfiable :
  octets 32 ex_key /\ Forall rop_ok [SetWordPos (2 ^ 100 + 3); NextU64; SetStream 7; SetBlockPos (2 ^ 64 - 1); Fill 1000; Serialize]
  /\ no_gbp [SetWordPos (2 ^ 100 + 3); NextU64; SetStream 7; SetBlockPos (2 ^ 64 - 1); Fill 1000; Serialize].
Proof. split; [checks|]. split; repeat constructor; discriminate. Qed.
Example C22_word_satisfiable : octets 32 ex_key /\ 5 < 2 ^ 64 /\ 2 ^ 68 - 1 < 2 ^ 68.
Proof. checks. Qed.
Example C22_fill_equals_cipher_satisfiable : octets 32 ex_key /\ env_ok ex_env /\ N.of_nat 1000 < 2 ^ e_usz ex_env /\ N.of_nat 1000 <= 64 * (2 ^ 64 - 1).
Proof. split; [checks|]. split; [|split; vm_compute; [reflexivity | discriminate]]. right. right. reflexivity. Qed.
(** All five code paths at the wrap of the 64-bit counter. *)
Definition ex_wrap : list N := mk_state Legacy ex_key ex_nonce8 (2 ^ 64 - 2).
Definition ex_builds : list (config * cpu) :=
  [ (cf0, pc0);
    ({| c_target := X86; c_backend := CfgSse2; c_avx512 := false |}, pc0);
    ({| c_target := X86; c_backend := NoCfg; c_avx512 := true |}, {| has_avx512 := true; has_avx2 := true; has_sse2 := true |});
    ({| c_target := Aarch64Neon; c_backend := NoCfg; c_avx512 := false |}, pc0) ].
Example C23_refill_satisfiable : u32x16 ex_wrap
  /\ Forall (fun b => generate (fst b) (snd b) Legacy 1 ex_wrap = generate cf0 pc0 Legacy 1 ex_wrap) ex_builds
  /\ firstn 2 (skipn 12 (snd (generate cf0 pc0 Legacy 1 ex_wrap))) = [2; 0].
Proof. split; [checks|]. split; [repeat constructor; vm_compute; reflexivity | vm_compute; reflexivity]. Qed.
Example C24_set_satisfiable : reachable 4 ex_rng /\ 2 ^ 68 + 2 ^ 70 - 3 < 2 ^ 128 /\ (2 ^ 68 + 2 ^ 70 - 3) mod 2 ^ 68 = 2 ^ 68 - 3.
Proof. split; [exact ex_rng_reachable|]. split; reflexivity. Qed.
Example C24_cycle_satisfiable : exists ds k, N.of_nat (total ds) = k * 2 ^ 68 /\ k = 1.
Proof.
  exists [DFill (4 * N.to_nat (2 ^ 68))], 1. split; [|reflexivity]. cbn [total draw_words]. rewrite Nat.add_0_r.
  remember (N.to_nat (2 ^ 68)) as m eqn:Em. replace ((4 * m + 3) / 4)%nat with m by lia. rewrite Em, N2Nat.id. reflexivity.
Qed.
Example C25_set_satisfiable : reachable 4 ex_rng /\ 2 ^ 64 - 1 < 2 ^ 64 /\ rng_get_block_pos false ex_rng = Ok 5.
Proof. split; [exact ex_rng_reachable|]. split; [reflexivity | vm_compute; reflexivity]. Qed.
Example C26_partial_satisfiable : octets 32 ex_key
  /\ rg_low 4 (fresh ex_key) [NextU32; GetBlockPos; SetWordPos (2 ^ 68 - 65); GetBlockPos; NextU32; GetBlockPos; Fill 9; SetStream 1; GetBlockPos].
Proof. split; [checks|]. vm_compute. intuition discriminate. Qed.
Example C27_satisfiable : reachable 4 ex_rng /\ 2 ^ 64 - 1 < 2 ^ 64 /\ get_stream ex_rng <> 2 ^ 64 - 1.
Proof. split; [exact ex_rng_reachable|]. split; [reflexivity|]. vm_compute. discriminate. Qed.
Example C28_satisfiable : exists r xs r', rng_from_seed ex_key = Ok r
  /\ rng_run (rng_gen cf0 pc0 4) true r [NextU64; SetStream 5; Fill 341; NextU64; NextU64] = Ok (xs, r') /\ r' = ex_rng.
Proof.
  assert (Hseed : octets 32 ex_key) by checks.
  destruct (C21_history 4 cf0 pc0 true ex_key [NextU64; SetStream 5; Fill 341; NextU64; NextU64] Hseed) as (r & r' & E & E').
  - repeat constructor.
  - right. repeat constructor; discriminate.
  - exists r, (fst (rg_run 4 (fresh ex_key) [NextU64; SetStream 5; Fill 341; NextU64; NextU64])), r'. split; [exact E|]. split; [exact E'|].
    unfold ex_rng, ex_run. rewrite E, E'. reflexivity.
Qed.
(** The copy buffers other words than the original and still compares equal. *)
Example C29_round_trip_satisfiable :
  match serialize_state true ex_rng with
  | Ok a => a = ex_key ++ hex "0500000000000000" ++ hex "5a0000000000000000"
            /\ match deserialize_state (rng_gen cf0 pc0 4) a with
               | Ok r => rng_eq ex_rng r = true /\ b_idx r = 10%nat | Panic => False end
  | Panic => False end.
Proof. vm_compute. auto. Qed.
Definition ex_49 : list N := ex_key ++ ex_nonce8 ++ hex "ffffffffffffffffff".
Example C29_any_array_satisfiable : octets 49 ex_49 /\ nth 48 ex_49 0 mod 16 = 15.
Proof. checks. Qed.
(** Equal, with different buffers. *)
Definition ex_rng' : rng := ex_run [SetStream 5; SetWordPos 52; Fill 150].
Example C30_satisfiable : reachable 4 ex_rng' /\ rng_eq ex_rng ex_rng' = true /\ b_core ex_rng <> b_core ex_rng' /\ b_idx ex_rng' = 42%nat.
Proof.
  split; [apply ex_run_reachable; repeat constructor; discriminate|]. split; [vm_compute; reflexivity|]. split; [|vm_compute; reflexivity].
  vm_compute. discriminate.
Qed.
Example C31_partial_satisfiable : octets 32 ex_key /\ u32x16 (mk_state Ietf ex_key ex_nonce12 (2 ^ 32 - 5))
  /\ nth 12 (mk_state Ietf ex_key ex_nonce12 (2 ^ 32 - 5)) 0 + 4 < 2 ^ 32.
Proof. checks. Qed.
