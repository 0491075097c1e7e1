(** Final theorem C82: the complete list of panics.

    For every public type and every history of calls, exactly which calls panic, in builds
    with and without overflow checks. *)
From Coq Require Import String.
From Verif Require Import Word Res WordLemmas Hex PropCommon SpecStream SpecRng ChaChaCore ChaChaDispatch Ciphers CipherWrapper
  WrapperProofs CiphersProofs StreamLemmas BlockRng ChaChaRng RngProofs Rc4 SeekNum Panics BlockApi Sizes
  PropertiesStream PropertiesSeekNum PropertiesBlockApi PropertiesRng PropertiesRngExact PropertiesSizes.
From Coq Require Import ZArith Lia ZifyBool ZifyNat ZifyN.
Local Open Scope string_scope.
Local Open Scope N_scope.
Local Open Scope list_scope.

(** ** Unwrapping methods *)
Definition blows (x : (bool * top) * tret) : bool := match x with ((true, _), Ans Err) => true | _ => false end.
(** What unwrapping makes of the answers [rs] of the [try_] forms. *)
Definition unwrapped (h : list (bool * top)) (rs : list tret) : Res (list tret) :=
  if existsb blows (combine h rs) then Panic else Ok rs.

Lemma urun_run {W} (step : W -> top -> Res (tret * W)) (run : W -> list top -> Res (list tret)) :
  (forall w, run w [] = Ok []) ->
  (forall w o h, run w (o :: h) = do (r, w1) <- step w o; do rs <- run w1 h; Ok (r :: rs)) ->
  forall h w, urun step t_failed w h = do rs <- run w (map snd h); unwrapped h rs.
Proof.
  intros R0 R1. induction h as [|[f o] h IH]; intros w; [rewrite R0; reflexivity|].
  cbn [urun map snd]. rewrite R1. unfold ustep. cbn [fst snd]. destruct (step w o) as [[r w1]|]; [|reflexivity]. cbn [bind].
  assert (X : forall rs, unwrapped ((f, o) :: h) (r :: rs) = if f && t_failed r then Panic else do rs <- unwrapped h rs; Ok (r :: rs)).
  { intros rs. unfold unwrapped. cbn [combine existsb].
    destruct f; [|cbn [andb orb blows]; destruct (existsb blows (combine h rs)); reflexivity].
    destruct r as [[l| |p|]|z]; cbn [t_failed andb orb blows]; destruct (existsb blows (combine h rs)); reflexivity. }
  destruct (f && t_failed r) eqn:E.
  - destruct (run w1 (map snd h)) as [rs|]; cbn [bind]; [|reflexivity]. rewrite X. reflexivity.
  - cbn [bind]. rewrite IH. destruct (run w1 (map snd h)) as [rs|]; cbn [bind]; [|reflexivity]. rewrite X.
    destruct (unwrapped h rs); reflexivity.
Qed.
(** The unwrapping methods are the [try_] methods and nothing else: same answers, a panic in
    place of the first error. *)
Theorem C82_unwrap_seekable e c l h : cipher_lim c = Some l ->
  unwrap_run e c h = do rs <- typed_run e c (map snd h); unwrapped h rs.
Proof.
  intros Hl.
  assert (G : forall (S : Type) (C : score S) K (m : Res S),
    (do st <- m; urun (tstep C K (e_usz e)) t_failed (w_new C st) h)
    = do rs <- (do st <- m; trun C K (e_usz e) (w_new C st) (map snd h)); unwrapped h rs).
  { intros S C K [st|]; [|reflexivity]. cbn [bind]. apply (urun_run (tstep C K (e_usz e)) (trun C K (e_usz e))); reflexivity. }
  destruct c as [v n key iv | n key iv | n key iv | n key iv | key iv | key | key iv | key]; try discriminate Hl; apply G.
Qed.
Print Assumptions C82_unwrap_seekable.
Definition as_plain (x : bool * op) : bool * top := (fst x, Plain (snd x)).
Lemma plain_run {W} (step : W -> op -> Res (ret * W)) (run : W -> list op -> Res (list ret * W)) :
  (forall w, run w [] = Ok ([], w)) ->
  (forall w o h, run w (o :: h) = do (r, w1) <- step w o; do (rs, w2) <- run w1 h; Ok (r :: rs, w2)) ->
  forall h w, urun (plain_step step) t_failed w (map as_plain h)
  = do (rs, _) <- run w (map snd h); unwrapped (map as_plain h) (map Ans rs).
Proof.
  intros R0 R1 h w.
  set (run' := fix go (w : W) (h : list top) : Res (list tret) :=
    match h with [] => Ok [] | o :: h' => do (r, w1) <- plain_step step w o; do rs <- go w1 h'; Ok (r :: rs) end).
  rewrite (urun_run (plain_step step) run') by reflexivity.
  replace (run' w (map snd (map as_plain h))) with (do (rs, _) <- run w (map snd h); Ok (map Ans rs)).
  - destruct (run w (map snd h)) as [[rs w']|]; reflexivity.
  - revert w. induction h as [|[f o] h IH]; intros w; cbn [map snd as_plain fst]; [rewrite R0; reflexivity|].
    rewrite R1. cbn [run' plain_step]. destruct (step w o) as [[r w1]|]; [|reflexivity]. cbn [bind]. fold run'. rewrite <- IH.
    destruct (run w1 (map snd h)) as [[rs w2]|]; reflexivity.
Qed.
Theorem C82_unwrap e c h : 
  unwrap_run e c (map as_plain h) = do rs <- cipher_run e c (map snd h); unwrapped (map as_plain h) (map Ans rs).
Proof.
  assert (S1 : forall (S : Type) (C : score S) K (m : Res S),
    (do st <- m; urun (tstep C K (e_usz e)) t_failed (w_new C st) (map as_plain h))
    = do rs <- run_core C (Some K) m (map snd h); unwrapped (map as_plain h) (map Ans rs)).
  { intros S C K [st|]; [|reflexivity]. unfold run_core. cbn [bind].
    transitivity (urun (plain_step (step C (Some K))) t_failed (w_new C st) (map as_plain h)).
    - generalize (w_new C st). induction h as [|[f o] h' IH]; intros w; [reflexivity|]. cbn [map urun]. unfold ustep, as_plain at 1 2 4 5.
      cbn [fst snd tstep plain_step]. destruct (step C (Some K) w o) as [[r w1]|]; [|reflexivity]. cbn [bind].
      destruct (f && t_failed (Ans r)); [reflexivity|]. cbn [bind]. rewrite IH. reflexivity.
    - rewrite (plain_run (step C (Some K)) (run C (Some K))) by reflexivity.
      destruct (run C (Some K) (w_new C st) (map snd h)) as [[rs w]|]; reflexivity. }
  assert (S2 : forall (S : Type) (C : score S) (m : Res S),
    (do st <- m; urun (plain_step (step C None)) t_failed (w_new C st) (map as_plain h))
    = do rs <- run_core C None m (map snd h); unwrapped (map as_plain h) (map Ans rs)).
  { intros S C [st|]; [|reflexivity]. unfold run_core. cbn [bind]. rewrite (plain_run (step C None) (run C None)) by reflexivity.
    destruct (run C None (w_new C st) (map snd h)) as [[rs w]|]; reflexivity. }
  destruct c as [v n key iv | n key iv | n key iv | n key iv | key iv | key | key iv | key]; cbn [unwrap_run cipher_run]; try apply S1; try apply S2.
  destruct (new_from_slice key) as [[s|]|]; [|reflexivity|reflexivity]. cbn [bind]. rewrite (plain_run rc4_step rc4_run) by reflexivity.
  destruct (rc4_run s (map snd h)) as [[rs w]|]; reflexivity.
Qed.
Print Assumptions C82_unwrap.

(** ** The [try_] methods of the seekable ciphers *)
(** The only calls that panic: a position between -63 and -1; and, for Salsa in builds with
    overflow checks, a position inside the last block. *)
Definition is_salsa (c : cipher) : bool := match c with CSalsa _ _ _ | CXSalsa _ _ _ => true | _ => false end.
Definition bad_call (e : env) (c : cipher) (o : top) : Prop :=
  match o with
  | TSeek _ z => (-64 < z < 0)%Z \/ (is_salsa c = true /\ e_ck e = true /\ (64 * (2 ^ 64 - 1) < z < 64 * 2 ^ 64)%Z)
  | Plain (Seek q) => is_salsa c = true /\ e_ck e = true /\ 64 * (2 ^ 64 - 1) < q < 64 * 2 ^ 64
  | _ => False
  end.
Lemma seekable_lim c l : cipher_lim c = Some l -> l_bs l = 64 /\ (is_salsa c = true -> l_blocks l = 2 ^ 64).
Proof.
  destruct c as [[] n key iv | n key iv | n key iv | n key iv | key iv | key | key iv | key]; cbn [cipher_lim is_salsa]; intros E; try discriminate E;
    injection E as <-; split; try reflexivity; discriminate.
Qed.
Lemma strict_salsa e c : cipher_strict e c = is_salsa c && e_ck e.
Proof. destruct c; reflexivity. Qed.
Lemma seek_spec_none ks l strict p q : l_bs l = 64 ->
  step_spec ks (Some l) strict p (Seek q) = None <-> strict = true /\ l_usable l < q /\ q < 64 * l_blocks l.
Proof.
  intros Hb. cbn [step_spec]. rewrite Hb. destruct (N.ltb_spec (q / 64) (l_blocks l)) as [Hq|Hq].
  - destruct strict; cbn [andb]; [|split; [discriminate | intros (? & _); discriminate]].
    destruct (N.ltb_spec (l_usable l) q); split; try reflexivity; try discriminate.
    + intros _. split; [reflexivity|]. split; [assumption|]. pose proof (N.div_mod' q 64). pose proof (N.mod_lt q 64 ltac:(discriminate)). lia.
    + intros (_ & ? & _). lia.
  - split; [discriminate|]. intros (_ & _ & H). apply N.div_lt_upper_bound in H; [lia | discriminate].
Qed.
Theorem C82_try e c l h : env_ok e -> cipher_ok c -> cipher_lim c = Some l -> Forall (tcall_ok e) h ->
  typed_run e c h = Panic <-> Exists (bad_call e c) h.
Proof.
  intros He Hc Hl Hh. rewrite (C56_run e c l h He Hc Hl Hh). destruct (seekable_lim c l Hl) as [Hb HB].
  assert (One : forall p o, tstep_spec (cipher_ks c) l (cipher_strict e c) (e_usz e) p o = None <-> bad_call e c o).
  { intros p o.
    assert (Sk : forall q, step_spec (cipher_ks c) (Some l) (cipher_strict e c) p (Seek q) = None
      <-> is_salsa c = true /\ e_ck e = true /\ 64 * (2 ^ 64 - 1) < q < 64 * 2 ^ 64).
    { intros q. rewrite seek_spec_none by exact Hb. rewrite strict_salsa. unfold l_usable. rewrite Hb.
      destruct (is_salsa c) eqn:E; [|split; intros (? & _); discriminate]. rewrite (HB eq_refl). cbn [andb]. tauto. }
    destruct o as [o|t z|t]; cbn [tstep_spec bad_call].
    - destruct o as [d|d m|k|q|m]; try (match goal with |- context [step_spec ?a ?b ?c ?d ?f] => destruct (step_spec a b c d f) as [[? ?]|] eqn:E end;
        [split; [discriminate | contradiction]|]; exfalso; cbn [step_spec] in E; cbv zeta in E;
        repeat match type of E with context [if ?x then _ else _] => destruct x end; discriminate E).
      specialize (Sk q). destruct (step_spec _ _ _ p (Seek q)) as [[? ?]|]; rewrite <- Sk; split; try discriminate; tauto.
    - rewrite Hb. change (- Z.of_N 64)%Z with (-64)%Z. destruct (Z.leb_spec z (-64)); [split; [discriminate | intros [H1|(_ & _ & H1)]; lia]|].
      destruct (Z.ltb_spec z 0); [split; [intros _; left; lia | reflexivity]|].
      specialize (Sk (Z.to_N z)). destruct (step_spec _ _ _ p (Seek (Z.to_N z))) as [[? ?]|].
      + split; [discriminate|]. intros [H1|(A & B & H1)]; [lia|]. exfalso. destruct Sk as [_ Sk]. discriminate Sk.
        split; [exact A|]. split; [exact B|]. split; lia.
      + split; [|reflexivity]. intros _. right. destruct Sk as [Sk _]. destruct (Sk eq_refl) as (A & B & H1). split; [exact A|]. split; [exact B|]. split; lia.
    - cbv zeta. destruct (_ <=? l_usable l); [destruct (_ <=? _)%Z|destruct t]; split; try discriminate; contradiction. }
  generalize 0. clear Hh. induction h as [|o h IH]; intros p; cbn [trun_spec texpect].
  - split; [discriminate | intros H; inversion H].
  - rewrite Exists_cons, <- (One p). destruct (tstep_spec (cipher_ks c) l (cipher_strict e c) (e_usz e) p o) as [[r p1]|] eqn:E; [|cbn [texpect]; tauto].
    rewrite <- (IH p1). destruct (trun_spec _ _ _ _ p1 h) as [rs|]; cbn [texpect]; split; try discriminate; try tauto. intros [H|H]; discriminate H.
Qed.
Print Assumptions C82_try.
(** The other ciphers never panic through their [try_] methods. *)
Theorem C82_others e c h : env_ok e -> cipher_ok c -> cipher_lim c = None -> Forall (call_ok e) h -> cipher_run e c h <> Panic.
Proof.
  intros He Hc Hl Hh. rewrite (C17_history e c h He Hc Hh). rewrite Hl.
  assert (S : cipher_strict e c = false) by (destruct c; try discriminate Hl; reflexivity). rewrite S.
  pose proof (no_panic_spec (cipher_ks c) None false h eq_refl 0) as H. destruct (run_spec _ _ _ _ h) as [[rs p]|]; [discriminate | contradiction].
Qed.
Print Assumptions C82_others.

(** Encrypting with [apply_keystream] alone, in pieces of any size, panics exactly when the
    pieces together exceed the keystream. *)
Theorem C82_apply e c ds : env_ok e -> cipher_ok c -> Forall (short e) ds ->
  unwrap_run e c (map (fun d => (true, Plain (Apply d))) ds) = Panic <-> ~ fits c (N.of_nat (List.length (concat ds))).
Proof.
  intros He Hc Hs.
  replace (map (fun d => (true, Plain (Apply d))) ds) with (map as_plain (map (fun d => (true, Apply d)) ds)) by (rewrite map_map; reflexivity).
  rewrite C82_unwrap. replace (map snd (map (fun d => (true, Apply d)) ds)) with (map Apply ds) by (rewrite map_map; reflexivity).
  assert (Hcalls : Forall (call_ok e) (map Apply ds)) by (apply short_calls; exact Hs).
  rewrite (C17_history e c _ He Hc Hcalls).
  assert (Fit : forall n, fits c n <-> within (cipher_lim c) n).
  { intros n. split; [apply fits_within|]. unfold fits, within. destruct c as [[] | | | | | | | ]; cbn [last_byte cipher_lim]; unfold l_usable; cbn [l_bs l_blocks]; tauto. }
  rewrite Fit. clear Fit Hcalls Hs.
  assert (P0 : within (cipher_lim c) 0) by (destruct c as [[] | | | | | | | ]; cbn; repeat split; discriminate).
  replace (N.of_nat (List.length (concat ds))) with (0 + N.of_nat (List.length (concat ds))) by lia.
  revert P0. generalize (cipher_ks c) (cipher_strict e c) 0.
  generalize (cipher_lim c). intros lim ks strict. induction ds as [|d ds IH]; intros p Hp.
  - cbn [map run_spec bind concat List.length]. rewrite N.add_0_r. cbn. split; [discriminate | contradiction].
  - cbn [map concat run_spec step_spec]. rewrite app_length.
    assert (OK : (match lim with None => true | Some l => granted l p (N.of_nat (List.length d)) end) = true <-> within lim (p + N.of_nat (List.length d))).
    { destruct lim as [l|]; [|cbn [within]; tauto]. rewrite granted_iff by exact Hp. cbn [within] in *. rewrite N.leb_le. tauto. }
    destruct (match lim with None => true | Some l => granted l p (N.of_nat (List.length d)) end) eqn:E.
    + apply proj1 in OK. specialize (IH _ (OK eq_refl)).
      replace (p + N.of_nat (List.length d + List.length (concat ds))) with (p + N.of_nat (List.length d) + N.of_nat (List.length (concat ds))) by lia.
      rewrite <- IH. destruct (run_spec ks lim strict (p + N.of_nat (List.length d)) (map Apply ds)) as [[rs p2]|]; cbn [bind]; [|tauto].
      unfold unwrapped. cbn [map combine existsb blows as_plain fst snd orb]. destruct (existsb blows _); split; congruence.
    + split; [|intros _].
      * intros _ W. assert (within lim (p + N.of_nat (List.length d))).
        { destruct lim; cbn [within] in *; [repeat split; [tauto | tauto | lia] | exact I]. }
        apply OK in H. discriminate H.
      * destruct (run_spec ks lim strict p (map Apply ds)) as [[rs p2]|]; cbn [bind]; [|reflexivity].
        unfold unwrapped. cbn [map combine existsb blows as_plain fst snd orb]. reflexivity.
Qed.
Print Assumptions C82_apply.

(** ** The cores *)
Definition blocks_of (o : bop) : N :=
  match o with
  | BWrite1 | BApply1 _ => 1
  | BWrite k => N.of_nat k
  | BApply d => N.of_nat (List.length d / 64)
  | _ => 0
  end.
(** The block number after the calls [h]. *)
Definition block_at (h : list bop) : N := fold_left (fun b o => match o with BSetPos x => x | _ => b + blocks_of o end) h 0.
(** Block-level calls panic in [salsa20] with overflow checks only, exactly when one of them
    generates the last block of the period. *)
Theorem C82_blocks e c h last : env_ok e -> cipher_ok c -> has_core c ->
  Forall (bop_ok (block_bytes c) (counters c)) h -> last_ok e last ->
  block_run e c h last = Panic <->
  is_salsa c = true /\ e_ck e = true
  /\ exists h1 o h2, h = h1 ++ o :: h2 /\ 2 ^ 64 <= block_at h1 mod 2 ^ 64 + blocks_of o.
Proof.
  intros He Hc Hk Hh Hla. rewrite (C70_block e c h last He Hc Hk Hh Hla). unfold b_all. rewrite strict_salsa.
  assert (G : forall b, (exists h1 o h2, h = h1 ++ o :: h2
      /\ 2 ^ 64 <= fold_left (fun b o => match o with BSetPos x => x | _ => b + blocks_of o end) h1 b mod 2 ^ 64 + blocks_of o)
    <-> b_run (cipher_ks c) 64 (Some (2 ^ 64)) (e_usz e) true b h = None).
  { clear Hh. induction h as [|o h IH]; intros b.
    - split; [intros (h1 & o & h2 & E & _); destruct h1; discriminate E | discriminate].
    - assert (One : b_step (cipher_ks c) 64 (Some (2 ^ 64)) (e_usz e) true b o = None <-> 2 ^ 64 <= b mod 2 ^ 64 + blocks_of o).
      { pose proof (N.mod_lt b (2 ^ 64) ltac:(discriminate)).
        destruct o; cbn [b_step b_may negb orb blocks_of]; cbv zeta; try (split; [discriminate | lia]);
          match goal with |- context [?x <? ?y] => destruct (N.ltb_spec x y) as [L|L] end; (split; [first [discriminate | intros _; exact L] | intros H'; first [reflexivity | exfalso; apply (N.lt_irrefl (2 ^ 64)), (N.le_lt_trans _ _ _ H' L)]]). }
      cbn [b_run]. destruct (b_step (cipher_ks c) 64 (Some (2 ^ 64)) (e_usz e) true b o) as [[r b1]|] eqn:E.
      + assert (Eb : b1 = match o with BSetPos x => x | _ => b + blocks_of o end).
        { clear -E. destruct o; cbn [b_step blocks_of] in *; cbv zeta in E; repeat match type of E with context [if ?x then _ else _] => destruct x end;
            try discriminate E; injection E as _ <-; rewrite ?N.add_0_r; reflexivity. }
        specialize (IH b1). destruct (b_run (cipher_ks c) 64 (Some (2 ^ 64)) (e_usz e) true b1 h) as [[rs b2]|].
        * split; [|discriminate]. intros (h1 & o' & h2 & Eh & H). exfalso. destruct h1 as [|o1 h1]; cbn [app] in Eh; injection Eh as <- Eh.
          -- apply One in H. discriminate H.
          -- cbn [fold_left] in H. rewrite <- Eb in H. enough (Some (rs, b2) = None) by discriminate. apply IH. eauto.
        * split; [reflexivity|]. intros _. destruct IH as [_ IH]. destruct (IH eq_refl) as (h1 & o' & h2 & Eh & H).
          exists (o :: h1), o', h2. split; [rewrite Eh; reflexivity|]. cbn [fold_left]. rewrite <- Eb. exact H.
      + split; [reflexivity|]. intros _. exists [], o, h. split; [reflexivity|]. apply One. reflexivity. }
  destruct (is_salsa c) eqn:Es; cbn [andb].
  - assert (Ec : counters c = Some (2 ^ 64) /\ block_bytes c = 64%nat) by (destruct c; try discriminate Es; split; reflexivity).
    destruct Ec as [-> ->]. destruct (e_ck e) eqn:Ek.
    + unfold block_at. rewrite (G 0). destruct (b_run _ _ _ _ _ 0 h) as [[rs b]|]; split; try discriminate; try tauto. intros (_ & _ & H). discriminate H.
    + split; [|intros (_ & H & _); discriminate H]. intros H. exfalso.
      assert (N : forall b, b_run (cipher_ks c) 64 (Some (2 ^ 64)) (e_usz e) false b h <> None).
      { clear. induction h as [|o h IH]; intros b; cbn [b_run]; [discriminate|].
        assert (X : exists r b1, b_step (cipher_ks c) 64 (Some (2 ^ 64)) (e_usz e) false b o = Some (r, b1)) by (destruct o; cbn [b_step b_may negb orb]; cbv zeta; eauto).
        destruct X as (r & b1 & ->). specialize (IH b1). destruct (b_run _ _ _ _ _ b1 h) as [[? ?]|]; [discriminate | contradiction]. }
      specialize (N 0). destruct (b_run _ _ _ _ _ 0 h) as [[? ?]|]; [discriminate H | contradiction].
  - split; [|intros (H & _); discriminate H]. intros H. exfalso.
    assert (N : forall b, b_run (cipher_ks c) (block_bytes c) (counters c) (e_usz e) false b h <> None).
    { clear. generalize (counters c) (block_bytes c). intros M bs. induction h as [|o h IH]; intros b; cbn [b_run]; [discriminate|].
      assert (X : exists r b1, b_step (cipher_ks c) bs M (e_usz e) false b o = Some (r, b1))
        by (destruct M; destruct o; cbn [b_step b_may negb orb]; cbv zeta; eauto).
      destruct X as (r & b1 & ->). specialize (IH b1). destruct (b_run _ _ _ _ _ b1 h) as [[? ?]|]; [discriminate | contradiction]. }
    specialize (N 0). destruct (b_run _ _ _ _ _ 0 h) as [[? ?]|]; [discriminate H | contradiction].
Qed.
Print Assumptions C82_blocks.

(** ** The generators *)
Definition handed_all (h : list rop) (i : N) : N := fold_left (fun i o => handed o i) h i.
(** They panic with overflow checks only, exactly when [get_block_pos] is called while the
    buffer holds words from both sides of the end of the period (C26). *)
Theorem C82_generators n c p ck r h : reachable n r -> Forall rop_ok h ->
  rng_run (rng_gen c p n) ck r h = Panic <->
  ck = true /\ exists h1 h2, h = h1 ++ GetBlockPos :: h2
    /\ straddles (snd (rg_run n (at_ r) h1)) (handed_all h1 (N.of_nat (word_offset r))) = true.
Proof.
  intros Hr Hok. destruct ck.
  - pose proof (C26_reachable n c p r h Hr Hok) as H.
    assert (G : forall g i, rg_checked n g i h = None <-> exists h1 h2, h = h1 ++ GetBlockPos :: h2
      /\ straddles (snd (rg_run n g h1)) (handed_all h1 i) = true).
    { clear. induction h as [|o h IH]; intros g i.
      - split; [discriminate | intros (h1 & h2 & E & _); destruct h1; discriminate E].
      - cbn [rg_checked]. destruct (match o with GetBlockPos => straddles g i | _ => false end) eqn:E.
        + split; [|reflexivity]. intros _. destruct o; try discriminate E. exists [], h. split; [reflexivity | exact E].
        + destruct (rg_step n g o) as [x g1] eqn:Es. specialize (IH g1 (handed o i)).
          assert (Run : forall h1, snd (rg_run n g (o :: h1)) = snd (rg_run n g1 h1)).
          { intros h1. cbn [rg_run]. rewrite Es. destruct (rg_run n g1 h1). reflexivity. }
          destruct (rg_checked n g1 (handed o i) h) as [xs|].
          * split; [discriminate|]. intros (h1 & h2 & Eh & H). exfalso. destruct h1 as [|o1 h1]; cbn [app] in Eh; injection Eh as Eo Eh.
            -- subst o. cbn in H. rewrite E in H. discriminate H.
            -- subst o1. rewrite Run in H. enough (Some xs = None) by discriminate. apply IH. exists h1, h2. split; [exact Eh | exact H].
          * split; [|reflexivity]. intros _. destruct IH as [IH _]. destruct (IH eq_refl) as (h1 & h2 & Eh & H).
            exists (o :: h1), h2. split; [rewrite Eh; reflexivity|]. rewrite Run. exact H. }
    specialize (G (at_ r) (N.of_nat (word_offset r))). destruct (rg_checked n (at_ r) (N.of_nat (word_offset r)) h) as [xs|].
    + destruct H as (r' & E). rewrite E. split; [discriminate|]. intros (_ & X). apply G in X. discriminate X.
    + rewrite H. split; [|reflexivity]. intros _. split; [reflexivity|]. apply G. reflexivity.
  - split; [|intros (H & _); discriminate H]. intros H.
    destruct (C30_equal_futures n c p c p false r r Hr Hr (proj2 (C30_equality n r r Hr Hr) eq_refl) h Hok (or_introl eq_refl)) as (xs & r1 & _ & E & _).
    rewrite E in H. discriminate H.
Qed.
Print Assumptions C82_generators.

(** ** Constructors *)
(** Construction from slices never panics; [from_seed] of a core does for one type only. *)
Theorem C82_new : (forall e t key iv, env_ok e -> is_bytes key -> is_bytes iv -> slices_run e t key iv [] <> Panic)
  /\ (forall seed, octets 32 seed -> rng_from_seed seed <> Panic)
  /\ (forall v seed, octets 32 seed -> core_from_seed v seed = Panic <-> v = Ietf).
Proof.
  split; [|split].
  - intros e t key iv He Bk Bi.
    assert (D : lengths_ok t (List.length key) (List.length iv) \/ ~ lengths_ok t (List.length key) (List.length iv)).
    { destruct t; cbn [lengths_ok]; lia. }
    destruct D as [D|D].
    + rewrite (C66_stream e t key iv [] He Bk Bi (Forall_nil _) D). discriminate.
    + rewrite (C66_rejected e t key iv [] D). discriminate.
  - intros seed [Hl Hb]. destruct (rel_from_seed cf0 pc0 4 seed Hl Hb) as (r & -> & _). discriminate.
  - intros v seed Hs. destruct v; [split; [reflexivity | intros _; apply C31_from_seed_refuted; exact Hs]|].
    split; [|discriminate]. destruct (proj1 C31_core_partial seed Hs) as (st & -> & _). discriminate.
Qed.
Print Assumptions C82_new.

(** Each panic, and a neighbouring call that does not: positions -1 and -64; the last block of
    Salsa20 with and without overflow checks; unwrapping the error that the [try_] form
    returns; the last block on the core. *)
Definition px_c := CChaCha Ietf 4 ex_key ex_nonce12.
Definition px_s := CSalsa 4 ex_key ex_nonce8.
Example C82_satisfiable :
  env_ok ex_env /\ env_ok ex_env2 /\ cipher_ok px_c /\ cipher_ok px_s
  /\ Forall (tcall_ok ex_env) [TSeek I32 (-1); TSeek I32 (-64); TSeek U128 (64 * 2 ^ 64 - 1)]
  /\ typed_run ex_env px_c [TSeek I32 (-1)] = Panic /\ typed_run ex_env px_c [TSeek I32 (-64)] = Ok [Ans Err]
  /\ typed_run ex_env px_s [TSeek U128 (64 * 2 ^ 64 - 1)] = Panic /\ typed_run ex_env2 px_s [TSeek U128 (64 * 2 ^ 64 - 1)] = Ok [Ans Done]
  /\ unwrap_run ex_env px_c [(false, TSeek U128 (64 * (2 ^ 32 - 1))); (false, Plain (Apply [1]))] = Ok [Ans Done; Ans Err]
  /\ unwrap_run ex_env px_c [(false, TSeek U128 (64 * (2 ^ 32 - 1))); (true, Plain (Apply [1]))] = Panic
  /\ unwrap_run ex_env (CRc4 [1; 2; 3]) (map as_plain [(true, Write 0); (true, Seek 0)]) = Panic
  /\ block_run ex_env px_s [BSetPos (2 ^ 64 - 1); BRemaining] None = Ok ([BDone; BCount (Some 0)], None)
  /\ block_run ex_env px_s [BSetPos (2 ^ 64 - 1); BWrite1] None = Panic
  /\ 2 ^ 64 <= block_at [BSetPos (2 ^ 64 - 1)] mod 2 ^ 64 + blocks_of BWrite1.
Proof.
  split; [apply all_ok|]. split; [apply all_ok|]. split; [split; checks|]. split; [split; checks|].
  split; [repeat constructor; cbn; discriminate|].
  repeat (split; [vm_compute; reflexivity|]). vm_compute. discriminate.
Qed.
