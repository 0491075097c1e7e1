(** C71: the repairs of [Repaired.v] are enough.  For every claim that the code meets only in
    part, the same claim is proved here without exception of the code with one line changed. *)
From Coq Require Import String.
From Verif Require Import Word Res WordLemmas PropCommon SpecChaCha SpecSalsa SpecRng SpecStream ChaChaCore ChaChaBackend ChaChaSoft ChaChaProofs Simd
  SimdProofs ChaChaSse2 ChaChaDispatch ChaChaDispatchProofs Salsa SalsaProofs XChaCha CipherWrapper Ciphers WrapperProofs CiphersProofs StreamLemmas PropertiesStream
  BlockRng ChaChaRng RngProofs PropertiesRng ChaChaNeon ChaChaNeonProofs Memory MemoryProofs PropertiesMemory NeonEndian PropertiesEndian
  Lifecycle PropertiesSecrecy SeekNum PropertiesSeekNum Isa PropertiesIsa Repaired.
From Verif Require Cfg CfgProofs PropertiesCfg.
From Coq Require Import ZArith Lia ZifyBool ZifyNat ZifyN.
Ltac Zify.zify_post_hook ::= Z.div_mod_to_equations.
Open Scope N_scope.
Open Scope list_scope.

(** ** Generators (C26, C29, C30) *)
Lemma block_pos_r_release r : rng_get_block_pos false r = Ok (rng_get_block_pos_r r).
Proof.
  unfold rng_get_block_pos, rng_get_block_pos_r, sub_ck, add_ck, BUF_BLOCKS. cbv zeta.
  destruct (word_offset r =? 0)%nat; [reflexivity|].
  set (x := get_block_pos Legacy (b_core r)). set (y := N.of_nat (word_offset r) / BLOCK_WORDS).
  assert (M : forall a, (if a <? M64 then Ok a else Ok (a mod M64)) = Ok (a mod M64)).
  { intros a. destruct (N.ltb_spec a M64); [rewrite N.mod_small by assumption|]; reflexivity. }
  destruct (N.leb_spec 4 x); cbn [bind]; rewrite M; f_equal.
  - rewrite <- N.add_mod_idemp_l by discriminate. f_equal. f_equal.
    replace (x + M64 - 4) with ((x - 4) + 1 * M64) by lia. rewrite N.mod_add by discriminate. reflexivity.
  - f_equal. f_equal. rewrite (N.mod_small (x + M64 - 4)) by lia. lia.
Qed.
Lemma step_rel_r c p ck n r g o : Rel n r g -> rop_ok o ->
  exists r', rng_step_r (rng_gen c p n) ck r o = Ok (fst (rg_step n g o), r') /\ Rel n r' (snd (rg_step n g o)).
Proof.
  intros H Ho. destruct (match o with GetBlockPos => true | _ => false end) eqn:E.
  - destruct o; try discriminate E. cbn [rng_step_r].
    destruct (rel_step c p false n r g GetBlockPos H Ho) as [(_ & _ & X) | (r' & E' & HR)]; [discriminate|].
    cbn [rng_step] in E'. rewrite block_pos_r_release in E'. cbn [bind] in E'. exists r'. split; assumption.
  - assert (Es : rng_step_r (rng_gen c p n) ck r o = rng_step (rng_gen c p n) ck r o) by (destruct o; try discriminate E; reflexivity).
    rewrite Es. destruct (rel_step c p ck n r g o H Ho) as [(_ & -> & _) | X]; [discriminate E | exact X].
Qed.
Lemma run_rel_r c p ck n h : forall r g, Rel n r g -> Forall rop_ok h ->
  exists r', rng_run_r (rng_gen c p n) ck r h = Ok (fst (rg_run n g h), r') /\ Rel n r' (snd (rg_run n g h)).
Proof.
  induction h as [|o h IH]; intros r g HR Hok; cbn [rng_run_r rg_run]; [exists r; auto|].
  inversion Hok as [|? ? Ho Hok']; subst. destruct (step_rel_r c p ck n r g o HR Ho) as (r1 & E & HR1). rewrite E. cbn [bind].
  destruct (rg_step n g o) as [x g1]. cbn [fst snd] in *. destruct (IH r1 g1 HR1 Hok') as (r2 & E2 & HR2). rewrite E2. cbn [bind].
  destruct (rg_run n g1 h) as [xs g2]. exists r2. split; [reflexivity | exact HR2].
Qed.
(** C26 in full: every history of a generator, with or without overflow checks, answers as the
    specification; C30 in full: equal generators answer alike for ever, in any two builds; C29
    in full: so do a generator and its serialised copy. *)
Theorem C71_generator n c p ck r h : reachable n r -> Forall rop_ok h ->
  exists r', rng_run_r (rng_gen c p n) ck r h = Ok (fst (rg_run n (at_ r) h), r').
Proof. intros H Hok. destruct (run_rel_r c p ck n h r _ (reach_rel n r H) Hok) as (r' & E & _). eauto. Qed.
Print Assumptions C71_generator.
Theorem C71_equal_futures n c p c' p' ck ck' r r' h : reachable n r -> reachable n r' -> rng_eq r r' = true -> Forall rop_ok h ->
  exists xs r1 r2, rng_run_r (rng_gen c p n) ck r h = Ok (xs, r1) /\ rng_run_r (rng_gen c' p' n) ck' r' h = Ok (xs, r2) /\ rng_eq r1 r2 = true.
Proof.
  intros H H' E Hok. pose proof (reach_rel n r H) as HR. pose proof (reach_rel n r' H') as HR'.
  apply (rng_eq_spec c p n r _ r' _ HR HR') in E. rewrite <- E in HR'.
  destruct (run_rel_r c p ck n h r _ HR Hok) as (r1 & E1 & HR1). destruct (run_rel_r c' p' ck' n h r' _ HR' Hok) as (r2 & E2 & HR2).
  exists (fst (rg_run n (at_ r) h)), r1, r2. split; [exact E1|]. split; [exact E2|].
  apply (rng_eq_spec c p n r1 _ r2 _ HR1 HR2). reflexivity.
Qed.
Print Assumptions C71_equal_futures.
Theorem C71_round_trip n c p c' p' ck ck' r h : reachable n r -> Forall rop_ok h ->
  exists a r' xs r1 r2, serialize_state ck r = Ok a /\ deserialize_state (rng_gen c p n) a = Ok r'
  /\ rng_run_r (rng_gen c' p' n) ck' r h = Ok (xs, r1) /\ rng_run_r (rng_gen c p n) ck' r' h = Ok (xs, r2).
Proof.
  intros H Hok. destruct (C29_round_trip n c p c' p' ck ck' r H) as (a & r' & Ea & Er & Eq & _).
  assert (H' : reachable n r').
  { apply (R_deserialize n c p a r'); [|exact Er]. destruct (C29_layout n ck r H) as [E Ho]. rewrite Ea in E. injection E as ->. exact Ho. }
  destruct (C71_equal_futures n c' p' c p ck' ck' r r' h H H' Eq Hok) as (xs & r1 & r2 & E1 & E2 & _).
  exists a, r', xs, r1, r2. auto.
Qed.
Print Assumptions C71_round_trip.
(** The change matters: these calls panic in the code as it is. *)
Example C71_generator_satisfiable :
  reachable 4 ex_rng
  /\ rng_run (rng_gen cf0 pc0 4) true ex_rng [SetWordPos (2 ^ 68 - 15); GetBlockPos] = Panic
  /\ match rng_run_r (rng_gen cf0 pc0 4) true ex_rng [SetWordPos (2 ^ 68 - 15); GetBlockPos] with
     | Ok (xs, _) => xs = [Unit; Num (2 ^ 64 - 1)] | Panic => False end.
Proof. split; [exact ex_rng_reachable|]. split; vm_compute; reflexivity. Qed.

(** ** [ChaChaCore] as a seedable generator (C31) *)
Theorem C71_core v n c p c' p' seed st : octets 32 seed -> u32x16 st ->
  core_from_seed_r v seed = Ok (match v with Ietf => sp_ietf_state seed 0 (repeat 0 12) | Legacy => sp_djb_state seed 0 (repeat 0 8) end)
  /\ generate_r c p v n st = generate_r c' p' v n st
  /\ generate_r c p v n st
     = (flat_map (fun i => let ctr := (nth 12 st 0 + 2 ^ 32 * nth 13 st 0 + N.of_nat i) mod 2 ^ 64 in
                           sp_core n (firstn 12 st ++ [ctr mod 2 ^ 32; ctr / 2 ^ 32] ++ skipn 14 st)) [0; 1; 2; 3]%nat,
        let ctr := (nth 12 st 0 + 2 ^ 32 * nth 13 st 0 + 4) mod 2 ^ 64 in
        firstn 12 st ++ [ctr mod 2 ^ 32; ctr / 2 ^ 32] ++ skipn 14 st).
Proof.
  intros [Hl Hb] Hst. split; [|split].
  - unfold core_from_seed_r. destruct v; (rewrite new_internal_ok by (try assumption; reflexivity)); rewrite mk_state_spec by (try assumption; reflexivity); reflexivity.
  - apply C23_refill_backend_independent. exact Hst.
  - apply C23_refill. exact Hst.
Qed.
Print Assumptions C71_core.
Example C71_core_satisfiable : octets 32 ex_key /\ u32x16 (mk_state Ietf ex_key ex_nonce12 (2 ^ 32 - 1)) /\ core_from_seed Ietf ex_key = Panic.
Proof. split; [checks|]. split; [checks | reflexivity]. Qed.

(** ** Seeking (C20, C56) *)
(** The specification has no exceptions left: a tape of [L] keystream bytes and a position
    [p <= L] on it. *)
Definition tape_step (ks : N -> N) (L : N) (p : N) (o : op) : ret * N :=
  let use (d : list N) := if p + N.of_nat (List.length d) <=? L
    then (Bytes (map (fun x => N.lxor (fst x) (snd x)) (combine d (map (fun i => ks (p + N.of_nat i)) (seq 0 (List.length d))))),
          p + N.of_nat (List.length d))
    else (Err, p) in
  match o with
  | Apply d => use d
  | ApplyB2b d m => if (List.length d =? m)%nat then use d else (Err, p)
  | Write n => if p + N.of_nat n <=? L then (Bytes (map (fun i => ks (p + N.of_nat i)) (seq 0 n)), p + N.of_nat n) else (Err, p)
  | Seek q => if q <=? L then (Done, q) else (Err, p)
  | CurPos tmax => if 64 * ((p + 63) / 64) <? tmax then (Pos p, p) else (Err, p)
  end.
Fixpoint tape_run (ks : N -> N) (L : N) (p : N) (h : list op) : list ret :=
  match h with [] => [] | o :: h' => let (r, p') := tape_step ks L p o in r :: tape_run ks L p' h' end.

(** Calls that are passed on by the guard. *)
Definition passed (L : N) (o : op) : bool := match o with Seek q => q <=? L | _ => true end.
(** The answers to a history from those to the calls passed on. *)
Fixpoint reinsert (L : N) (h : list op) (rs : list ret) : list ret :=
  match h with
  | [] => []
  | o :: h' => if passed L o then match rs with r :: rs' => r :: reinsert L h' rs' | [] => [] end else Err :: reinsert L h' rs
  end.
Lemma guard_seek M q : 1 < M -> ((q / 64 =? M - 1) && negb (q mod 64 =? 0) = true \/ M <= q / 64) <-> 64 * (M - 1) < q.
Proof. intros H. rewrite andb_true_iff, negb_true_iff, N.eqb_eq, N.eqb_neq. lia. Qed.
Lemma step_r_passed {S} (C : score S) K w o : sc_bs C = 64%nat -> 1 < sk_mod K ->
  step_r C K w o = if passed (64 * (sk_mod K - 1)) o then step C (Some K) w o else Ok (Err, w).
Proof.
  intros Hb HM. destruct o as [| | |q|]; try reflexivity. cbn [step_r passed]. unfold try_seek_r. rewrite Hb. change (N.of_nat 64) with 64.
  pose proof (guard_seek (sk_mod K) q HM) as G.
  destruct (N.leb_spec q (64 * (sk_mod K - 1))) as [Hq|Hq].
  - destruct (_ && _); [exfalso; assert (X : 64 * (sk_mod K - 1) < q) by (apply G; left; reflexivity); lia|]. reflexivity.
  - destruct (_ && _) eqn:E; [reflexivity|]. apply G in Hq. destruct Hq as [Hq|Hq]; [discriminate|].
    unfold try_seek. rewrite Hb. change (N.of_nat 64) with 64. destruct (N.ltb_spec (q / 64) (sk_mod K)); [lia|]. reflexivity.
Qed.
Lemma run_r_passed {S} (C : score S) K h : sc_bs C = 64%nat -> 1 < sk_mod K -> forall w,
  run_r C K w h = do (rs, w') <- run C (Some K) w (filter (passed (64 * (sk_mod K - 1))) h);
                  Ok (reinsert (64 * (sk_mod K - 1)) h rs, w').
Proof.
  intros Hb HM. induction h as [|o h IH]; intros w; [reflexivity|]. cbn [run_r filter reinsert]. rewrite step_r_passed by assumption.
  destruct (passed _ o).
  - cbn [run]. destruct (step C (Some K) w o) as [[r w1]|]; [|reflexivity]. cbn [bind]. rewrite IH.
    destruct (run C (Some K) w1 _) as [[rs w2]|]; reflexivity.
  - cbn [bind]. rewrite IH. destruct (run C (Some K) w _) as [[rs w2]|]; reflexivity.
Qed.
Lemma core_r_passed {S} (C : score S) K m h : sc_bs C = 64%nat -> 1 < sk_mod K ->
  run_core_r C K m h = do rs <- run_core C (Some K) m (filter (passed (64 * (sk_mod K - 1))) h); Ok (reinsert (64 * (sk_mod K - 1)) h rs).
Proof.
  intros Hb HM. unfold run_core_r, run_core. destruct m as [st|]; [|reflexivity]. cbn [bind]. rewrite run_r_passed by assumption.
  destruct (run C (Some K) _ _) as [[rs w]|]; reflexivity.
Qed.
Lemma cipher_r_passed e c L h : last_byte c = Some L ->
  cipher_run_r e c h = do rs <- cipher_run e c (filter (passed L) h); Ok (reinsert L h rs).
Proof.
  intros HL. destruct c as [[] | | | | | | | ]; cbn [last_byte] in HL; try discriminate HL; injection HL as <-;
    cbn [cipher_run_r cipher_run]; apply core_r_passed; reflexivity.
Qed.
Lemma tape_ok ks l strict : l_bs l = 64 -> 1 < l_blocks l -> forall h p, p <= l_usable l ->
  exists rs p', run_spec ks (Some l) strict p (filter (passed (l_usable l)) h) = Some (rs, p')
    /\ reinsert (l_usable l) h rs = tape_run ks (l_usable l) p h.
Proof.
  intros Hb HB. induction h as [|o h IH]; intros p Hp; [exists [], p; split; reflexivity|].
  assert (Hper : l_period l = l_usable l + 64) by (unfold l_period, l_usable; rewrite Hb; lia).
  assert (Hs : passed (l_usable l) o = true -> step_spec ks (Some l) strict p o = Some (tape_step ks (l_usable l) p o)).
  { intros Ho.
    assert (Hg : forall n, granted l p n = (p + n <=? l_usable l)) by (intros n; apply granted_iff; repeat split; lia).
    destruct o as [d|d m|n|q|t]; cbn [passed step_spec tape_step] in *; cbv zeta; unfold ks_xor, ks_range.
    - rewrite Hg. destruct (_ <=? _); reflexivity.
    - rewrite Hg. destruct (_ =? _)%nat; [|reflexivity]. destruct (_ <=? _); reflexivity.
    - rewrite Hg. destruct (_ <=? _); reflexivity.
    - rewrite Ho, Hb. apply N.leb_le in Ho. destruct (N.ltb_spec (q / 64) (l_blocks l)).
      + destruct (N.ltb_spec (l_usable l) q); [lia|]. rewrite andb_false_r. reflexivity.
      + unfold l_usable in Ho. rewrite Hb in Ho. lia.
    - rewrite N.mod_small by lia. rewrite Hb. replace (p + 64 - 1) with (p + 63) by lia. rewrite (N.mul_comm _ 64).
      destruct (N.leb_spec p (l_usable l)); [|lia]. cbn [andb]. destruct (_ <? _); reflexivity. }
  assert (Hin : snd (tape_step ks (l_usable l) p o) <= l_usable l).
  { destruct o as [d|d m|n|q|t]; cbn [tape_step]; cbv zeta;
      repeat match goal with |- context [if ?b then _ else _] => destruct b eqn:? end; cbn [snd]; lia. }
  cbn [filter reinsert tape_run]. destruct (passed (l_usable l) o) eqn:Eo.
  - cbn [run_spec]. rewrite (Hs eq_refl). destruct (tape_step ks (l_usable l) p o) as [r p1]. cbn [snd] in Hin.
    destruct (IH p1 Hin) as (rs & p' & E & Er). rewrite E. exists (r :: rs), p'. rewrite Er. split; reflexivity.
  - destruct (IH p Hp) as (rs & p' & E & Er). exists rs, p'. split; [exact E|]. rewrite Er.
    destruct o as [| | |q|]; cbn [passed] in Eo; try discriminate Eo. cbn [tape_step]. rewrite Eo. reflexivity.
Qed.
Lemma filter_ok {A} (P : A -> Prop) f l : Forall P l -> Forall P (filter f l).
Proof. induction 1 as [|x l Hx Hl IH]; cbn [filter]; [constructor|]. destruct (f x); [constructor|]; assumption. Qed.
(** C20 in full, and more: every history of every seekable cipher, in every build, is that of
    the tape; in particular none panics (Salsa with overflow checks included), and no request
    granted after any seeks ends past the last byte. *)
Theorem C71_seek e c L h : env_ok e -> cipher_ok c -> last_byte c = Some L -> Forall (call_ok e) h ->
  cipher_run_r e c h = Ok (tape_run (cipher_ks c) L 0 h).
Proof.
  intros He Hc HL Hh. rewrite (cipher_r_passed e c L h HL). destruct (last_some c L HL) as (l & El & ->).
  destruct (last_lim c l El) as (_ & Hb & H64).
  rewrite cipher_run_ok by (try assumption; apply filter_ok; assumption). rewrite El.
  destruct (tape_ok (cipher_ks c) l (cipher_strict e c) H64 Hb h 0 ltac:(lia)) as (rs & p' & E & Er). rewrite E. cbn [expect bind].
  rewrite Er. reflexivity.
Qed.
Print Assumptions C71_seek.
Theorem C71_guard e c L h rs : env_ok e -> cipher_ok c -> last_byte c = Some L -> Forall (call_ok e) h ->
  cipher_run_r e c h = Ok rs ->
  forall h1 o h2 rs1 l rs2, h = h1 ++ o :: h2 -> rs = rs1 ++ Bytes l :: rs2 -> List.length rs1 = List.length h1 ->
  track 0 h1 rs1 + N.of_nat (List.length l) <= L.
Proof.
  intros He Hc HL Hh Hr h1 o h2 rs1 l rs2 Eh Er Hlen. rewrite (C71_seek e c L h He Hc HL Hh) in Hr.
  assert (E : tape_run (cipher_ks c) L 0 h = rs) by congruence. clear Hr. subst.
  assert (H0 : 0 <= L) by lia. revert E Hlen H0. clear. generalize (cipher_ks c) as ks, 0 as p. intros ks p. revert p rs1.
  induction h1 as [|o1 h1 IH]; intros p rs1 E Hlen Hp; destruct rs1 as [|r1 rs1]; try discriminate Hlen; cbn [app tape_run] in E.
  - destruct o as [d|d m|n|q|t]; cbn [tape_step track] in *; cbv zeta in *;
      repeat match type of E with context [if ?b then _ else _] => destruct b eqn:? end; try discriminate E;
      match type of E with _ :: _ = Bytes ?x :: _ => idtac end; injection E as <- _;
      rewrite ?map_length, ?combine_length, ?map_length, ?seq_length; lia.
  - destruct (tape_step ks L p o1) as [r p1] eqn:Es.
    assert (E1 : r = r1) by congruence. assert (E2 : tape_run ks L p1 (h1 ++ o :: h2) = rs1 ++ Bytes l :: rs2) by congruence. subst r.
    clear E. injection Hlen as Hlen. cbn [track].
    assert (X : p1 <= L /\ p1 = moved p o1 r1).
    { revert Es. destruct o1 as [d|d m|n|q|t]; cbn [tape_step]; cbv zeta;
        repeat match goal with |- context [if ?b then _ else _] => destruct b eqn:? end; intros Es;
        injection Es as <- <-; cbn [moved]; rewrite ?map_length, ?combine_length, ?map_length, ?seq_length; split; lia. }
    destruct X as [X1 X2]. rewrite <- X2. apply (IH p1 rs1 E2 Hlen X1).
Qed.
Print Assumptions C71_guard.
(** The change matters: this history reuses keystream in the code as it is (C20). *)
Example C71_seek_satisfiable : let c := CChaCha Ietf 4 ex_key ex_nonce12 in let L := 64 * (2 ^ 32 - 1) in
  env_ok ex_env /\ cipher_ok c /\ last_byte c = Some L
  /\ (exists b, cipher_run ex_env c [Write 64; Seek (L + 1); Write 127] = Ok [Bytes b; Done; Bytes (ks_range (cipher_ks c) (L + 1) 63 ++ b)])
  /\ (exists b b', cipher_run_r ex_env c [Write 64; Seek (L + 1); Write 127] = Ok [Bytes b; Err; Bytes b']).
Proof.
  cbv zeta. set (c := CChaCha _ _ _ _).
  assert (He : env_ok ex_env) by (right; right; reflexivity). assert (Hc : cipher_ok c) by (split; checks).
  split; [exact He|]. split; [exact Hc|]. split; [reflexivity|]. split.
  - exists (ks_range (cipher_ks c) 0 64). vm_compute. reflexivity.
  - rewrite (C71_seek ex_env c (64 * (2 ^ 32 - 1)) _ He Hc eq_refl) by (repeat constructor; reflexivity).
    cbn [tape_run tape_step N.add N.of_nat]. do 2 eexists. vm_compute. reflexivity.
Qed.
Close Scope N_scope.
Open Scope Z_scope.
(** The same with positions of any integer type. *)
Definition ttape_step (ks : N -> N) (L : N) (usz : N) (p : N) (o : top) : tret * N :=
  match o with
  | Plain o => let (r, p') := tape_step ks L p o in (Ans r, p')
  | TSeek _ z => if (0 <=? z) && (z <=? Z.of_N L) then (Ans Done, Z.to_N z) else (Ans Err, p)
  | TPos t => if 64 * ((Z.of_N p + 63) / 64) <=? ty_max usz t then (At (Z.of_N p), p) else (Ans Err, p)
  end.
Fixpoint ttape_run (ks : N -> N) (L : N) (usz : N) (p : N) (h : list top) : list tret :=
  match h with [] => [] | o :: h' => let (r, p') := ttape_step ks L usz p o in r :: ttape_run ks L usz p' h' end.

Definition tpassed (L : N) (o : top) : bool :=
  match o with Plain o => passed L o | TSeek _ z => (0 <=? z) && (z <=? Z.of_N L) | TPos _ => true end.
Definition clamp (r : tret) : tret := match r with At z => if z <? 0 then Ans Err else At z | r => r end.
Fixpoint treinsert (L : N) (h : list top) (rs : list tret) : list tret :=
  match h with
  | [] => []
  | o :: h' => if tpassed L o then match rs with r :: rs' => clamp r :: treinsert L h' rs' | [] => [] end else Ans Err :: treinsert L h' rs
  end.
Lemma seek_z_r {S} (C : score S) K w z : sc_bs C = 64%nat -> (1 < sk_mod K)%N ->
  try_seek_z_r C K w z = if (0 <=? z) && (z <=? Z.of_N (64 * (sk_mod K - 1))) then try_seek_z C K w z else Ok None.
Proof.
  intros Hb HM. rewrite C56_seek by (try assumption; lia). unfold try_seek_z_r. rewrite Hb. change (N.of_nat 64) with 64%N.
  destruct (Z.ltb_spec z 0); [destruct (Z.leb_spec 0 z); [lia|reflexivity]|].
  destruct (Z.leb_spec 0 z); [|lia]. cbn [andb]. unfold into_block_byte. change (Z.of_N 64) with 64. cbv zeta.
  rewrite Z.quot_div_nonneg, Z.rem_mod_nonneg by lia.
  assert (Ez : forall b r, b = Z.to_N (z / 64) -> r = Z.to_N ((z mod 64) mod 256) -> (64 * b + r)%N = Z.to_N z).
  { intros b r -> ->. lia. }
  assert (Eq : (Z.to_N z / 64)%N = Z.to_N (z / 64)) by lia.
  pose proof (guard_seek (sk_mod K) (Z.to_N z) HM) as G.
  destruct (Z.leb_spec 0 (z / 64)); [|lia].
  destruct (Z.ltb_spec (z / 64) (Z.of_N (sk_mod K))); cbn [andb].
  - rewrite (Ez _ _ eq_refl eq_refl). unfold try_seek_r. rewrite Hb. change (N.of_nat 64) with 64%N.
    destruct (Z.leb_spec z (Z.of_N (64 * (sk_mod K - 1)))) as [Hq|Hq].
    + destruct (Z.leb_spec z (-64)); [lia|].
      destruct (_ && _)%bool; [exfalso; assert (X : (64 * (sk_mod K - 1) < Z.to_N z)%N) by (apply G; left; reflexivity); lia|]. reflexivity.
    + destruct (_ && _)%bool; [reflexivity|]. assert (X : (64 * (sk_mod K - 1) < Z.to_N z)%N) by lia. apply G in X. destruct X as [X|X]; [discriminate|lia].
  - destruct (Z.leb_spec z (Z.of_N (64 * (sk_mod K - 1)))); [lia|]. reflexivity.
Qed.
Lemma trun_r_passed {S} (C : score S) K usz h : sc_bs C = 64%nat -> (1 < sk_mod K)%N -> forall w,
  trun_r C K usz w h = do rs <- trun C K usz w (filter (tpassed (64 * (sk_mod K - 1))) h); Ok (treinsert (64 * (sk_mod K - 1)) h rs).
Proof.
  intros Hb HM. induction h as [|o h IH]; intros w; [reflexivity|]. cbn [trun_r filter treinsert].
  assert (Hs : tstep_r C K usz w o = if tpassed (64 * (sk_mod K - 1)) o then do (r, w') <- tstep C K usz w o; Ok (clamp r, w') else Ok (Ans Err, w)).
  { destruct o as [o|t z|t]; cbn [tstep_r tpassed tstep].
    - rewrite step_r_passed by assumption. destruct (passed _ o); [|reflexivity]. destruct (step C (Some K) w o) as [[r w']|]; reflexivity.
    - rewrite seek_z_r by assumption. destruct (_ && _)%bool; [|reflexivity]. destruct (try_seek_z C K w z) as [[w'|]|]; reflexivity.
    - unfold try_current_pos_z_r. destruct (try_current_pos_z C K usz t w) as [z|]; [|reflexivity]. cbn [bind clamp]. destruct (z <? 0); reflexivity. }
  rewrite Hs. destruct (tpassed _ o).
  - cbn [trun]. destruct (tstep C K usz w o) as [[r w1]|]; [|reflexivity]. cbn [bind]. rewrite IH.
    destruct (trun C K usz w1 _); reflexivity.
  - cbn [bind]. rewrite IH. destruct (trun C K usz w _); reflexivity.
Qed.
Lemma typed_r_passed e c L h : last_byte c = Some L ->
  typed_run_r e c h = do rs <- typed_run e c (filter (tpassed L) h); Ok (treinsert L h rs).
Proof.
  intros HL.
  assert (G : forall S (C : score S) K (m : Res S), sc_bs C = 64%nat -> (1 < sk_mod K)%N -> L = (64 * (sk_mod K - 1))%N ->
    (do st <- m; trun_r C K (e_usz e) (w_new C st) h)
    = do rs <- (do st <- m; trun C K (e_usz e) (w_new C st) (filter (tpassed L) h)); Ok (treinsert L h rs)).
  { intros S C K m Hb HM ->. destruct m as [st|]; [|reflexivity]. cbn [bind]. apply trun_r_passed; assumption. }
  destruct c as [[] | | | | | | | ]; cbn [last_byte] in HL; try discriminate HL; injection HL as HL;
    cbn [typed_run_r typed_run]; apply G; try reflexivity; symmetry; exact HL.
Qed.
Lemma ttape_ok ks l strict usz : l_bs l = 64%N -> (1 < l_blocks l)%N -> forall h p, (p <= l_usable l)%N ->
  exists rs, trun_spec ks l strict usz p (filter (tpassed (l_usable l)) h) = Some rs
    /\ treinsert (l_usable l) h rs = ttape_run ks (l_usable l) usz p h.
Proof.
  intros Hb HB. induction h as [|o h IH]; intros p Hp; [exists []; split; reflexivity|].
  assert (Hper : l_period l = (l_usable l + 64)%N) by (unfold l_period, l_usable; rewrite Hb; lia).
  assert (Hplain : forall o, passed (l_usable l) o = true -> step_spec ks (Some l) strict p o = Some (tape_step ks (l_usable l) p o)
                     /\ (snd (tape_step ks (l_usable l) p o) <= l_usable l)%N).
  { intros o0 Ho. destruct (tape_ok ks l strict Hb HB [o0] p Hp) as (rs & p' & E & Er).
    cbn [filter] in E. rewrite Ho in E. cbn [run_spec] in E. cbn [reinsert] in Er. rewrite Ho in Er. split.
    - destruct (step_spec ks (Some l) strict p o0) as [[r p1]|] eqn:Es; [|discriminate].
      assert (rs = [r]) by congruence. subst rs. cbn [tape_run] in Er. destruct (tape_step ks (l_usable l) p o0) as [r' p1'] eqn:Et.
      assert (r = r') by congruence. subst r'. f_equal. f_equal.
      revert Es Et. clear -Ho Hp Hb HB Hper. intros Es Et.
      assert (Hg : forall n, granted l p n = (p + n <=? l_usable l)%N) by (intros n; apply granted_iff; repeat split; lia).
      destruct o0 as [d|d m|n|q|t]; cbn [step_spec tape_step] in *; cbv zeta in *; rewrite ?Hg in Es;
        repeat match type of Es with context [if ?b then _ else _] => destruct b eqn:? end;
        repeat match type of Et with context [if ?b then _ else _] => destruct b eqn:? end;
        try discriminate; try congruence.
    - clear -Hp. destruct o0 as [d|d m|n|q|t]; cbn [tape_step]; cbv zeta;
      repeat match goal with |- context [if ?b then _ else _] => destruct b eqn:? end; cbn [snd]; lia. }
  cbn [filter treinsert ttape_run]. destruct (tpassed (l_usable l) o) eqn:Eo.
  - cbn [trun_spec].
    assert (Hs : exists r p1, tstep_spec ks l strict usz p o = Some (r, p1) /\ ttape_step ks (l_usable l) usz p o = (clamp r, p1) /\ (p1 <= l_usable l)%N).
    { destruct o as [o|t z|t]; cbn [tpassed tstep_spec ttape_step] in *.
      - destruct (Hplain o Eo) as [E Hin]. rewrite E. destruct (tape_step ks (l_usable l) p o) as [r p1]. exists (Ans r), p1. auto.
      - rewrite Eo. apply andb_prop in Eo. destruct Eo as [E1 E2]. apply Z.leb_le in E1, E2.
        rewrite Hb. destruct (Z.leb_spec z (- Z.of_N 64)); [lia|]. destruct (Z.ltb_spec z 0); [lia|].
        assert (Ho : passed (l_usable l) (Seek (Z.to_N z)) = true) by (cbn [passed]; lia).
        destruct (Hplain _ Ho) as [E Hin]. rewrite E. cbn [tape_step passed] in *. rewrite Ho in *. exists (Ans Done), (Z.to_N z). auto.
      - cbv zeta. rewrite N.mod_small by lia. rewrite Hb. destruct (N.leb_spec p (l_usable l)); [|lia].
        replace (Z.of_N ((p + 64 - 1) / 64 * 64)) with (64 * ((Z.of_N p + 63) / 64)) by lia.
        destruct (Z.leb_spec (64 * ((Z.of_N p + 63) / 64)) (ty_max usz t)).
        + exists (At (Z.of_N p)), p. cbn [clamp]. destruct (Z.ltb_spec (Z.of_N p) 0); [lia|]. auto.
        + exists (Ans Err), p. auto. }
    destruct Hs as (r & p1 & E1 & E2 & Hin). rewrite E1, E2. destruct (IH p1 Hin) as (rs & E & Er). rewrite E. exists (r :: rs).
    rewrite Er. split; reflexivity.
  - destruct (IH p Hp) as (rs & E & Er). exists rs. split; [exact E|].
    assert (Hs : ttape_step ks (l_usable l) usz p o = (Ans Err, p)).
    { destruct o as [o|t z|t]; cbn [tpassed ttape_step] in *; [|rewrite Eo; reflexivity|discriminate Eo].
      destruct o as [| | |q|]; cbn [passed] in Eo; try discriminate Eo. cbn [tape_step]. rewrite Eo. reflexivity. }
    rewrite Hs, Er. reflexivity.
Qed.
(** C56 in full: no position is negative, no seek panics. *)
Theorem C71_typed e c L h : env_ok e -> cipher_ok c -> last_byte c = Some L -> Forall (tcall_ok e) h ->
  typed_run_r e c h = Ok (ttape_run (cipher_ks c) L (e_usz e) 0 h).
Proof.
  intros He Hc HL Hh. rewrite (typed_r_passed e c L h HL). destruct (last_some c L HL) as (l & El & ->).
  destruct (last_lim c l El) as (_ & Hb & H64).
  rewrite (C56_run e c l) by (try assumption; apply filter_ok; assumption).
  destruct (ttape_ok (cipher_ks c) l (cipher_strict e c) (e_usz e) H64 Hb h 0%N ltac:(lia)) as (rs & E & Er). rewrite E. cbn [texpect bind].
  rewrite Er. reflexivity.
Qed.
Print Assumptions C71_typed.
Example C71_typed_satisfiable :
  typed_run c56_env c56_cipher [TSeek I32 (-1)] = Panic
  /\ typed_run_r c56_env c56_cipher [TSeek I32 (-1); TSeek I32 70; TSeek U64 (64 * (2 ^ 32 - 1) + 1); TPos I32]
     = Ok [Ans Err; Ans Done; Ans Err; At 70].
Proof.
  assert (He : env_ok c56_env) by (right; right; reflexivity). assert (Hc : cipher_ok c56_cipher) by (split; checks).
  split; [apply C56_satisfiable|].
  rewrite (C71_typed c56_env c56_cipher (64 * (2 ^ 32 - 1))%N) by
    (try assumption; try reflexivity; repeat constructor; cbn; lia). reflexivity.
Qed.
Close Scope Z_scope.
Open Scope N_scope.

(** ** The Salsa core (C36) *)
(** For every raw state and in every build profile: the Salsa core of the state. *)
Theorem C71_salsa n st : u32x16 st ->
  fst (salsa_gen_ks_block_r n (from_raw_state st)) = ss_bytes (ss_core n st)
  /\ salsa_gen_ks_block false n (from_raw_state st) = Ok (salsa_gen_ks_block_r n (from_raw_state st))
  /\ (forall ck x, salsa_gen_ks_block ck n (from_raw_state st) = Ok x -> x = salsa_gen_ks_block_r n (from_raw_state st)).
Proof.
  intros H. split.
  - unfold salsa_gen_ks_block_r, from_raw_state. cbv zeta. cbn [fst]. rewrite s_run_rounds_spec, ss_bytes_eq by exact H. reflexivity.
  - unfold salsa_gen_ks_block, salsa_gen_ks_block_r, add_ck. cbv zeta. set (s := from_raw_state st). set (x := salsa_get_pos s + 1).
    destruct (N.ltb_spec x M64) as [Hx|Hx].
    + rewrite (N.mod_small x) by exact Hx. split; [reflexivity|]. intros ck y E. cbn [bind] in E. congruence.
    + split; [reflexivity|]. intros ck y E. destruct ck; [discriminate E|]. cbn [bind] in E. congruence.
Qed.
Print Assumptions C71_salsa.
Example C71_salsa_satisfiable : let st := repeat 0 8 ++ [0xffffffff; 0xffffffff] ++ repeat 0 6 in
  u32x16 st /\ salsa_gen_ks_block true 4 (from_raw_state st) = Panic /\ snd (salsa_gen_ks_block_r 4 (from_raw_state st)) = repeat 0 16.
Proof. cbv zeta. split; [apply u32x16_check; vm_compute; reflexivity|]. split; vm_compute; reflexivity. Qed.

(** ** Wiping (C48) *)
(** With the crate's own [zeroize] alone, every cipher of every crate leaves zeros, whatever
    the key, nonce and calls. *)
Theorem C71_wiped e1 e2 f c1 c2 h1 h2 mem1 mem2 :
  env_ok e1 -> env_ok e2 -> cipher_ok c1 -> cipher_ok c2 -> same_type c1 c2 -> own f = true ->
  after_drop_r e1 f c1 h1 = Ok mem1 -> after_drop_r e2 f c2 h2 = Ok mem2 ->
  mem1 = mem2 /\ mem1 = repeat 0 (size c1).
Proof.
  intros He1 He2 Hc1 Hc2 Ht Hf E1 E2. apply (C48_chacha_partial e1 e2 (features_r f) c1 c2 h1 h2); try assumption.
  cbn [features_r Lifecycle.ext]. rewrite Hf. apply orb_true_r.
Qed.
Print Assumptions C71_wiped.
Example C71_wiped_satisfiable :
  after_drop_r e64 only_own (CChaCha Ietf R20 (repeat 1 32) (repeat 3 12)) [Write 5] = Ok (repeat 0 80)
  /\ after_drop e64 only_own (CChaCha Ietf R20 (repeat 1 32) (repeat 3 12)) [Write 5] <> Ok (repeat 0 80).
Proof. split; vm_compute; [reflexivity | discriminate]. Qed.

(** ** Instructions (C52) *)
Lemma lane1_r_ok a : lane1_r a = Simd.mm_extract_epi32 a 1.
Proof. reflexivity. Qed.
(** The change computes the same, *)
Theorem C71_sse2_same v n f st : sse2_inner_r v n f st = sse2_inner v n f st /\ sse2_rng_inner_r v n st = sse2_rng_inner v n st.
Proof. split; reflexivity. Qed.
Print Assumptions C71_sse2_same.
(** and every instruction that any selected backend executes exists on the machine. *)
Theorem C71_instructions c m v : real m -> runs_on c m ->
  can_execute m (cipher_executes_r c (detect m) v) /\ can_execute m (rng_executes_r c (detect m) v).
Proof.
  intros R B. unfold cipher_executes_r, rng_executes_r.
  pose proof (cipher_backend_on c m R B) as Hc. pose proof (rng_backend_on c m R B) as Hr.
  pose proof (C52_cipher_partial c m v R B) as Pc. pose proof (C52_rng_partial c m v R B) as Pr. split.
  - destruct (cipher_backend c (detect m)); try (apply Pc; discriminate).
    apply can_executeb_spec. destruct v; cbn; rewrite Hc; reflexivity.
  - destruct (rng_backend c (detect m)); try (apply Pr; discriminate).
    apply can_executeb_spec. destruct v; cbn; rewrite Hr; reflexivity.
Qed.
Print Assumptions C71_instructions.
Example C71_instructions_satisfiable :
  real only_sse2 /\ runs_on default_x86 only_sse2 /\ rng_backend default_x86 (detect only_sse2) = BSse2
  /\ ~ can_execute only_sse2 (rng_executes default_x86 (detect only_sse2) Legacy).
Proof.
  split; [repeat split; discriminate|]. split; [split; [reflexivity|constructor]|]. split; [reflexivity|].
  apply (C52_exceptions default_x86 only_sse2 Legacy eq_refl). reflexivity.
Qed.

(** ** Builds (C58) *)
Definition table_r : list (Cfg.cfg * Cfg.item) := CfgProofs.conds Cfg.CTrue crate_r.
Lemma crate_r_uses : CfgProofs.uses_ok 24 CfgProofs.wf table_r table_r = true.
Proof. vm_compute. reflexivity. Qed.
Lemma crate_r_decls : CfgProofs.decls_ok 24 CfgProofs.wf table_r = true.
Proof. vm_compute. reflexivity. Qed.
Lemma items_r_keep b : items_r b = CfgProofs.keep (Cfg.atoms b) table_r.
Proof. symmetry. apply CfgProofs.keep_conds. reflexivity. Qed.
Lemma errors_r : CfgProofs.errors table_r = CfgProofs.errors CfgProofs.table.
Proof. vm_compute. reflexivity. Qed.
(** A build is accepted exactly when the target features of the backend it forces are enabled. *)
Theorem C71_builds b : PropertiesCfg.features_enabled b <-> PropertiesCfg.accepted (items_r b).
Proof.
  assert (Ne : PropertiesCfg.features_enabled b <-> forall m, ~ In (Cfg.Error m) (items_r b)).
  { rewrite PropertiesCfg.no_error, items_r_keep, CfgProofs.items_keep.
    assert (X : forall t, (forall m, ~ In (Cfg.Error m) (CfgProofs.keep (Cfg.atoms b) t)) <-> Cfg.eval (Cfg.atoms b) (CfgProofs.errors t) <> true).
    { intros t. rewrite CfgProofs.errors_spec. split; [intros H (m & Hm); exact (H m Hm) | intros H m Hm; apply H; exists m; exact Hm]. }
    rewrite !X, errors_r. reflexivity. }
  rewrite Ne. split; [|intros H; apply H]. intros H. split; [|split; [|exact H]].
  - rewrite items_r_keep. apply (CfgProofs.uses_ok_sound _ _ _ _ _ crate_r_uses). apply CfgProofs.atoms_wf.
  - apply PropertiesCfg.nodup_split. rewrite items_r_keep. apply (CfgProofs.decls_ok_sound _ _ _ _ crate_r_decls). apply CfgProofs.atoms_wf.
Qed.
Print Assumptions C71_builds.
(** Nothing else changes: in every build that the code as it is accepts, the items are the same. *)
Theorem C71_builds_same b : ~ (PropertiesCfg.half_avx512 b /\ PropertiesCfg.any_feature b) -> items_r b = Cfg.items b.
Proof.
  intros H. rewrite <- PropertiesCfg.clash_spec in H. unfold items_r, Cfg.items, crate_r, Cfg.crate. cbn [Cfg.cat Cfg.active].
  repeat apply (f_equal2 (@app Cfg.item)); try reflexivity.
  unfold lib_new_internal_r, Cfg.lib_new_internal, Cfg.when. cbn [Cfg.active Cfg.cat].
  unfold CfgProofs.clash in H. cbn [Cfg.eval] in H |- *.
  destruct (Cfg.atoms b Cfg.FCipher || Cfg.atoms b Cfg.FRng)%bool eqn:E1; unfold Cfg.cipher_or_rng, Cfg.any_x86 in *; cbn [Cfg.eval] in *; rewrite ?E1 in *; [|reflexivity].
  destruct (Cfg.atoms b Cfg.BSoft); [reflexivity|]. destruct (_ || _)%bool; [|reflexivity]. cbn [andb] in H.
  destruct (Cfg.atoms b Cfg.CAvx512), (Cfg.atoms b Cfg.BAvx512); try reflexivity. exfalso. apply H. reflexivity.
Qed.
Print Assumptions C71_builds_same.

(** ** NEON on either byte order (C62) *)
Lemma store_row3_r_ok be st r : wf16 st -> List.length r = 4%nat -> words r -> neon_store_row3_r be st r = Ok (firstn 12 st ++ r).
Proof.
  intros [Hl Hw] Hr Hwr. unfold neon_store_row3_r. cbv zeta. unfold whole. rewrite mem_of_u32s_length, Hl. padd.
  rewrite p_store_ok; cbn [p_lo p_hi p_off]; rewrite ?mem_of_u32s_length, ?Hl, ?Hr; try lia.
  cbn [bind]. f_equal. change (0 + 12 * 4)%nat with 48%nat.
  assert (E : put (mem_of_u32s be st) 48 (mem_of_u32s be r) = mem_of_u32s be (firstn 12 st ++ r)).
  { rewrite mem_of_u32s_app. unfold put. rewrite mem_of_u32s_length, Hr.
    rewrite (skipn_all2 (n := (48 + 4 * 4)%nat)) by (rewrite mem_of_u32s_length, Hl; lia). rewrite app_nil_r. f_equal.
    clear Hw. destr16 st Hl. destruct be; reflexivity. }
  rewrite E. apply u32s_round. apply Forall_app. split; [|exact Hwr].
  clear - Hw. unfold words in *. rewrite Forall_forall in *. intros x Hx. apply Hw.
  rewrite <- (firstn_skipn 12 st). apply in_or_app. left. assumption.
Qed.
Lemma from_le_back be w : w < M32 -> u32_from_le be (u32_from_le be w) = w.
Proof.
  intros H. unfold u32_from_le. destruct be; [|reflexivity].
  assert (B : bytes (rev (to_le 4 w))) by (apply Forall_rev, to_le_bytes).
  rewrite <- (to_from_le (rev (to_le 4 w)) B) at 1. rewrite rev_length, to_le_length.
  assert (E : from_le (to_le 4 (from_le (rev (to_le 4 w)))) = from_le (rev (to_le 4 w))).
  { pose proof (to_from_le _ B) as E. rewrite rev_length, to_le_length in E. rewrite E. reflexivity. }
  pose proof (to_from_le _ B) as E2. rewrite rev_length, to_le_length in E2. rewrite E, E2, rev_involutive. apply from_to_le4. exact H.
Qed.
(** The ciphers and the generators are right on both byte orders. *)
Theorem C71_neon be v n l st buf : u32x16 st -> good_requests 8 l -> List.length buf = 64%nat ->
  (exists bufs st', neon_inner_r be v n l st = Ok (bufs, st') /\ portable v n l st = Ok (concat bufs, st'))
  /\ neon_rng_inner_r be v n st buf = Ok (neon_rng_inner v n st)
  /\ neon_rng_inner_r be Legacy n st buf = Ok (soft_gen_ks_blocks n st).
Proof.
  intros H Hg Hb.
  assert (Hrng : forall v, neon_rng_inner_r be v n st buf = Ok (neon_rng_inner v n st)).
  { intros v0. pose proof (rng_at_ok be v0 n st buf H Hb) as E. unfold neon_rng_inner_at in E. unfold neon_rng_inner_r.
    rewrite neon_new_at_ok in E |- * by exact H. cbn [bind] in E |- *.
    destruct (neon_rng_write v0 n (neon_regs st) (mem_of_u32s be buf)) as [m|]; [|discriminate E]. cbn [bind] in E |- *.
    rewrite neon_ctrs_nth in E |- * by lia. change (nth 3 (neon_state (neon_regs st)) []) with (r3 st) in E |- *.
    cbn [Nat.add] in E |- *. change (N.of_nat 4) with 4 in E |- *. rewrite neon_add_r3 in E |- * by (try assumption; lia).
    destruct (r3_words _ (adv_wf v0 4 st H)) as [L W].
    rewrite store_row3_at_ok in E by assumption. rewrite store_row3_r_ok by assumption. cbn [bind] in E |- *.
    rewrite store_row3 in E |- * by apply H. rewrite neon_rng_eq in E |- * by exact H. cbn [fst snd] in E.
    assert (Ew : u32s_of_mem be m = if be then map byte_swap (words_from v0 n 4 st) else words_from v0 n 4 st).
    { destruct be; apply ok_pair in E; apply E. }
    rewrite Ew. do 2 f_equal. unfold u32_from_le. destruct be; [|apply map_id].
    rewrite map_map. rewrite <- (map_id (words_from v0 n 4 st)) at 2. apply map_ext_in. intros w Hw.
    apply (from_le_back true). clear - H Hw. unfold words_from in Hw. apply in_flat_map in Hw. destruct Hw as (i & _ & Hw).
    destruct (run_rounds_wf n _ (adv_wf v0 (N.of_nat i) st H)) as [_ W]. unfold words in W. rewrite Forall_forall in W. exact (W w Hw). }
  split; [|split; [apply Hrng | rewrite Hrng, neon_rng_eq, soft_rng_eq by exact H; reflexivity]].
  destruct (neon_run_ok v n l st H Hg) as (bufs & k & E & EL & En). exists bufs, (adv v k st). split.
  - unfold neon_inner_r. rewrite neon_new_at_ok by exact H. cbn [bind]. rewrite E. cbn [bind].
    change (nth 3 (neon_state (neon_regs (adv v k st))) []) with (r3 (adv v k st)).
    destruct v.
    + cbn [bind]. do 2 f_equal. apply (store_ctr Ietf). apply H.
    + destruct (r3_words _ (adv_wf Legacy k st H)) as [L W].
      rewrite store_row3_r_ok by assumption. rewrite (store_row3 Legacy) by apply H. reflexivity.
  - destruct (inner_at_portable false v n l st H Hg) as (bufs' & st' & Es & _ & E'). rewrite Es.
    destruct (inner_at_ok false v n l st H Hg) as (bufs2 & st2 & E2 & _ & E3). rewrite E3 in E'.
    assert (bufs2 = bufs' /\ st2 = st').
    { destruct v; apply ok_pair in E'; exact E'. }
    destruct H0 as [-> ->]. rewrite E2 in En. exact En.
Qed.
Print Assumptions C71_neon.
Example C71_neon_satisfiable :
  u32x16 (mk_state Legacy ex_key ex_nonce8 0xffffffff) /\ good_requests 8 [(Par, repeat 2 512); (Tail 3, repeat 5 192)].
Proof. split; [apply u32x16_check; vm_compute; reflexivity|]. unfold good_requests. repeat constructor. Qed.
