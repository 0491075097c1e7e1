(** C74: what a generator does, and when, depends on positions and on the arguments of the
    calls, not on the seed, the stream number or the words drawn - except for [==], which
    reveals whether the seeds agree, and, when the memory comparison stops at the first
    difference, the seed itself. *)
From Verif Require Import Word WordLemmas Res SpecRng ChaChaCore ChaChaSoft ChaChaProofs ChaChaBackend ChaChaDispatch ChaChaDispatchProofs BlockRng ChaChaRng RngProofs
  Memory MemoryProofs Leakage LeakageProofs LeakageRes LeakageResProofs LeakageSimd LeakageSim LeakageSimdProofs LeakageRng PropCommon
  PropertiesMemory PropertiesTiming PropertiesRng PropertiesRngExact.
From Verif Require Isa.
From Coq Require Import ZArith Lia ZifyBool ZifyNat ZifyN.
Local Open Scope N_scope.

(** A generator as it is kept: 16 words of core, 64 of buffer. *)
Definition kept (r : rng) : Prop := wf16 (b_core r) /\ length (b_res r) = 64%nat.
(** Same index and same counter; everything else may differ. *)
Definition same_place (r1 r2 : rng) : Prop :=
  b_idx r1 = b_idx r2 /\ get (b_core r1) 12 = get (b_core r2) 12 /\ get (b_core r1) 13 = get (b_core r2) 13.

(** ** Erasure *)
Lemma generate_lk_value c p n st buf : wf16 st -> length buf = 64%nat -> fst (generate_lk c p n st buf) = Ok (rng_gen c p n st).
Proof.
  intros H Hb. assert (Hm : length (bytes_of_words buf) = 256%nat) by (rewrite bytes_of_words_length, Hb; reflexivity).
  assert (Hs : fst (lift (l_soft_gen_ks_blocks n st)) = Ok (soft_gen_ks_blocks n st)).
  { unfold lift, l_soft_gen_ks_blocks. cbn [fst]. rewrite l_rng_blocks_value. reflexivity. }
  destruct (C51_rng Legacy n st (bytes_of_words buf) H Hm) as ((a & A & _ & A') & (b & B & _ & B') & (d & D & _ & D')).
  unfold rng_gen, generate_lk, generate. cbv zeta.
  destruct (c_backend c); try exact Hs; destruct (c_target c); try exact Hs;
    repeat (rewrite fst_rbind; cbn [r_branch leak fst bind]);
    repeat match goal with |- context [if ?x then _ else _] => destruct x; repeat (rewrite fst_rbind; cbn [r_branch leak fst bind]) end;
    try exact Hs; rewrite ?sse2_rng_value, ?avx2_rng_value, ?neon_rng_value, ?A, ?B, ?D; cbn [bind rret fst];
    rewrite ?A', ?B', ?D'; rewrite <- surjective_pairing; reflexivity.
Qed.

Section Faithful.
  Context (G : list N -> list N -> LR (list N * list N)) (g : list N -> list N * list N)
    (HG : forall st buf, wf16 st -> length buf = 64%nat -> fst (G st buf) = Ok (g st))
    (Hg : forall st, wf16 st -> length (fst (g st)) = 64%nat /\ wf16 (snd (g st))).

  Lemma kept_set r i w j : kept r -> w < M32 -> kept {| b_core := upd (b_core r) i w; b_res := b_res r; b_idx := j |}.
  Proof using. intros [[Hl Hw] Hr] H. split; [split; [cbn [b_core]; rewrite upd_length; exact Hl | apply Forall_upd; assumption] | exact Hr]. Qed.

  Lemma word_offset_value r : fst (word_offset_lk r) = Ok (word_offset r).
  Proof using. reflexivity. Qed.
  Lemma reset_value r k : kept r -> fst (reset_and_skip_lk G r k) = reset_and_skip g r k
    /\ forall r', reset_and_skip g r k = Ok r' -> kept r'.
  Proof using HG Hg.
    intros [Hw Hr]. unfold reset_and_skip_lk, reset_and_skip. ez. destruct (k =? 0)%nat.
    - split; [reflexivity|]. intros r' E. injection E as <-. split; assumption.
    - ez. destruct (assert_ (k <? BUFFER_SIZE)%nat) as [[]|]; cbn [bind]; [|split; [reflexivity | discriminate]].
      rewrite ?fst_rbind, HG by assumption. cbn [bind]. destruct (Hg _ Hw) as [A B]. destruct (g (b_core r)) as [res core]. cbn [fst snd] in *.
      split; [reflexivity|]. intros r' E. injection E as <-. split; assumption.
  Qed.
  Lemma refill_value r : kept r -> fst (refill_lk G r) = Ok (refill g r) /\ kept (refill g r).
  Proof using HG Hg.
    intros [Hw Hr]. unfold refill_lk, refill. ez. destruct (BUFFER_SIZE <=? b_idx r)%nat; [|split; [reflexivity | split; assumption]].
    rewrite ?fst_rbind, HG by assumption. cbn [bind]. destruct (Hg _ Hw) as [A B]. destruct (g (b_core r)) as [res core]. cbn [fst snd] in *.
    split; [reflexivity | split; assumption].
  Qed.
  Lemma next_word_value r : kept r -> fst (next_word_lk G r) = Ok (next_word g r) /\ kept (snd (next_word g r)).
  Proof using HG Hg.
    intros H. destruct (refill_value r H) as [E K]. unfold next_word_lk, next_word. rewrite fst_rbind, E. cbn [bind]. ez. split; [reflexivity | exact K].
  Qed.
  Lemma next_u64_value r : kept r -> fst (next_u64_lk G r) = Ok (next_u64 g r) /\ kept (snd (next_u64 g r)).
  Proof using HG Hg.
    intros [Hw Hr]. destruct (Hg _ Hw) as [A B]. unfold next_u64_lk, next_u64. cbv zeta. ez. destruct (b_idx r <? BUFFER_SIZE - 1)%nat.
    - ez. split; [reflexivity | split; assumption].
    - ez. destruct (BUFFER_SIZE <=? b_idx r)%nat; ez; rewrite HG by assumption; cbn [bind]; destruct (g (b_core r)) as [res core]; cbn [fst snd] in *;
        ez; (split; [reflexivity | split; assumption]).
  Qed.
  Lemma fill_value fuel : forall r len, kept r -> fst (fill_loop_lk G fuel r len) = Ok (fill_loop g fuel r len) /\ kept (snd (fill_loop g fuel r len)).
  Proof using HG Hg.
    induction fuel as [|fuel IH]; intros r len H; cbn [fill_loop_lk fill_loop]; [split; [reflexivity | exact H]|].
    ez. destruct (len =? 0)%nat; [split; [reflexivity | exact H]|]. destruct (refill_value r H) as [E K]. rewrite ?fst_rbind, E. cbn [bind]. cbv zeta. ez.
    match goal with |- context [fill_loop_lk G fuel ?r1 ?l1] => destruct (IH r1 l1) as [E1 K1]; [exact K|] end.
    rewrite E1. cbn [bind]. destruct (fill_loop g fuel _ _) as [rest b]. split; [reflexivity | exact K1].
  Qed.
  Lemma get_word_pos_value r : fst (get_word_pos_lk r) = Ok (get_word_pos r).
  Proof using. reflexivity. Qed.
  Lemma get_block_pos_value ck r : fst (rng_get_block_pos_lk ck r) = rng_get_block_pos ck r.
  Proof using.
    unfold rng_get_block_pos_lk, rng_get_block_pos. cbv zeta. rewrite fst_rbind. unfold lift. cbn [fst bind]. rewrite l_get_block_pos_value.
    ez. rewrite word_offset_value. cbn [bind]. ez. destruct (word_offset r =? 0)%nat; [reflexivity|]. ez. reflexivity.
  Qed.
  Lemma set_block_pos_value r pos : kept r -> fst (rng_set_block_pos_lk G r pos) = rng_set_block_pos g r pos
    /\ forall r', rng_set_block_pos g r pos = Ok r' -> kept r'.
  Proof using HG Hg.
    intros H. unfold rng_set_block_pos_lk, rng_set_block_pos. destruct (reset_value r 0 H) as [E K]. rewrite fst_rbind, E.
    destruct (reset_and_skip g r 0) as [r1|]; cbn [bind]; [|split; [reflexivity|discriminate]]. specialize (K r1 eq_refl).
    rewrite fst_rbind. unfold lift. cbn [fst bind]. rewrite l_set_block_pos_value. split; [reflexivity|].
    intros r' E'. injection E' as <-. cbn [set_block_pos].
    apply (kept_set {| b_core := upd (b_core r1) 12 _; b_res := b_res r1; b_idx := b_idx r1 |});
      [apply kept_set; [exact K|]|]; unfold as_u32; apply N.mod_lt; discriminate.
  Qed.
  Lemma set_word_pos_value r pos : kept r -> fst (rng_set_word_pos_lk G r pos) = rng_set_word_pos g r pos
    /\ forall r', rng_set_word_pos g r pos = Ok r' -> kept r'.
  Proof using HG Hg.
    intros H. unfold rng_set_word_pos_lk, rng_set_word_pos. cbv zeta. ez. apply reset_value.
    apply (kept_set {| b_core := upd (b_core r) 12 _; b_res := b_res r; b_idx := b_idx r |});
      [apply kept_set; [exact H|]|]; unfold as_u32; apply N.mod_lt; discriminate.
  Qed.
  Lemma set_stream_value r s : kept r -> fst (set_stream_lk G r s) = set_stream g r s /\ forall r', set_stream g r s = Ok r' -> kept r'.
  Proof using HG Hg.
    intros H. unfold set_stream_lk, set_stream. cbv zeta. ez. apply set_block_pos_value.
    apply (kept_set {| b_core := upd (b_core r) 14 _; b_res := b_res r; b_idx := b_idx r |});
      [apply kept_set; [exact H|]|]; unfold as_u32; apply N.mod_lt; discriminate.
  Qed.
  Lemma get_seed_value r : wf16 (b_core r) -> fst (get_seed_lk r) = Ok (get_seed r).
  Proof using.
    intros [Hl _]. unfold get_seed_lk. rewrite (fst_for_pure _ _ (fun i out => out ++ to_le 4 (get (slice (b_core r) 4 8) i))); [|intros i out; ez; reflexivity].
    unfold get_seed. generalize dependent (b_core r). intros st Hl. destr16 st Hl. reflexivity.
  Qed.
  Lemma same_bytes_value a : forall i b, fst (same_bytes_lk i a b) = Ok (bytes_eqb a b).
  Proof using.
    induction a as [|x a IH]; intros i [|y b]; cbn [same_bytes_lk bytes_eqb]; try reflexivity.
    ez. destruct (x =? y); [apply IH | reflexivity].
  Qed.
  Lemma serialize_value ck r : wf16 (b_core r) -> fst (serialize_state_lk ck r) = serialize_state ck r.
  Proof using.
    intros H. unfold serialize_state_lk, serialize_state. cbv zeta. rewrite fst_rbind, get_seed_value by exact H. cbn [bind].
    rewrite fst_rbind. change (fst (get_stream_lk r)) with (Ok (get_stream r)). cbn [bind].
    rewrite fst_rbind, get_word_pos_value. cbn [bind]. rewrite fst_rbind. destruct ck.
    - rewrite fst_rbind, same_bytes_value. cbn [bind negb orb]. unfold r_assert at 1. cbn [leak fst]. apply bind_ext; [reflexivity|]. intros _. ez. reflexivity.
    - cbn [rret fst bind negb orb assert_]. ez. reflexivity.
  Qed.
  Lemma step_value ck r o : kept r -> fst (rng_step_lk G ck r o) = rng_step g ck r o /\ forall x r', rng_step g ck r o = Ok (x, r') -> kept r'.
  Proof using HG Hg.
    intros H. destruct o as [| |k| |p| |b| |s| |]; cbn [rng_step_lk rng_step]; rewrite fst_rbind.
    - destruct (next_word_value r H) as [E K]. rewrite E. cbn [bind]. destruct (next_word g r). split; [reflexivity|].
      intros ? ? E'. injection E' as <- <-. exact K.
    - destruct (next_u64_value r H) as [E K]. rewrite E. cbn [bind]. destruct (next_u64 g r). split; [reflexivity|].
      intros ? ? E'. injection E' as <- <-. exact K.
    - destruct (fill_value k r k H) as [E K]. rewrite E. unfold fill_bytes. cbn [bind]. destruct (fill_loop g k r k). split; [reflexivity|].
      intros ? ? E'. injection E' as <- <-. exact K.
    - rewrite get_word_pos_value. split; [reflexivity|]. intros ? ? E'. injection E' as <- <-. exact H.
    - destruct (set_word_pos_value r p H) as [E K]. rewrite E. destruct (rng_set_word_pos g r p); cbn [bind]; (split; [reflexivity|]); [|discriminate].
      intros ? ? E'. injection E' as <- <-. apply K. reflexivity.
    - rewrite get_block_pos_value. destruct (rng_get_block_pos ck r); cbn [bind]; (split; [reflexivity|]); [|discriminate].
      intros ? ? E'. injection E' as <- <-. exact H.
    - destruct (set_block_pos_value r b H) as [E K]. rewrite E. destruct (rng_set_block_pos g r b); cbn [bind]; (split; [reflexivity|]); [|discriminate].
      intros ? ? E'. injection E' as <- <-. apply K. reflexivity.
    - split; [reflexivity|]. intros ? ? E'. injection E' as <- <-. exact H.
    - destruct (set_stream_value r s H) as [E K]. rewrite E. destruct (set_stream g r s); cbn [bind]; (split; [reflexivity|]); [|discriminate].
      intros ? ? E'. injection E' as <- <-. apply K. reflexivity.
    - rewrite get_seed_value by apply H. split; [reflexivity|]. intros ? ? E'. injection E' as <- <-. exact H.
    - rewrite serialize_value by apply H. destruct (serialize_state ck r); cbn [bind]; (split; [reflexivity|]); [|discriminate].
      intros ? ? E'. injection E' as <- <-. exact H.
  Qed.
  Lemma run_value ck h : forall r, kept r -> fst (rng_run_lk G ck r h) = rng_run g ck r h.
  Proof using HG Hg.
    induction h as [|o h IH]; intros r H; [reflexivity|]. cbn [rng_run_lk rng_run]. destruct (step_value ck r o H) as [E K]. rewrite fst_rbind, E.
    destruct (rng_step g ck r o) as [[x r1]|]; [|reflexivity]. cbn [bind]. rewrite fst_rbind, IH by (eapply K; reflexivity).
    destruct (rng_run g ck r1 h) as [[xs r2]|]; reflexivity.
  Qed.
End Faithful.

(** The instrumented interface computes what the model computes. *)
Theorem C74_faithful n c p ck r r' h seed state : kept r -> kept r' ->
  fst (rng_run_lk (generate_lk c p n) ck r h) = rng_run (rng_gen c p n) ck r h
  /\ fst (rng_eq_lk (same_bytes_lk 0) r r') = Ok (rng_eq r r')
  /\ fst (rng_eq_lk at_once r r') = Ok (rng_eq r r')
  /\ fst (rng_from_seed_lk seed) = rng_from_seed seed
  /\ (bytes state -> fst (deserialize_state_lk (generate_lk c p n) state) = deserialize_state (rng_gen c p n) state).
Proof.
  intros H H'. assert (HG := generate_lk_value c p n). assert (Hg := gen_64 c p n).
  assert (Heq : forall cmp, (forall a b, fst (cmp a b) = Ok (bytes_eqb a b)) -> fst (rng_eq_lk cmp r r') = Ok (rng_eq r r')).
  { intros cmp Hc. unfold rng_eq_lk, rng_eq. rewrite fst_rbind, get_seed_value by apply H. cbn [bind].
    rewrite fst_rbind, get_seed_value by apply H'. cbn [bind]. rewrite fst_rbind, Hc. cbn [bind]. ez.
    destruct (bytes_eqb (get_seed r) (get_seed r')); [|reflexivity]. cbn [andb]. rewrite fst_rbind. change (fst (get_stream_lk r)) with (Ok (get_stream r)). cbn [bind].
    rewrite fst_rbind. change (fst (get_stream_lk r')) with (Ok (get_stream r')). cbn [bind]. ez. destruct (get_stream r =? get_stream r'); reflexivity. }
  split; [apply run_value; assumption|]. split; [apply Heq; intros; apply same_bytes_value|]. split; [apply Heq; reflexivity|]. split.
  - unfold rng_from_seed_lk, rng_from_seed. rewrite ?fst_rbind. cbn [fst]. rewrite l_new_internal_value. destruct (new_internal Legacy seed (repeat 0 8)); reflexivity.
  - intros Bs. unfold deserialize_state_lk, deserialize_state. cbv zeta. ez.
    destruct (assert_ _) as [[]|] eqn:Ea; [|reflexivity]. cbn [bind]. rewrite ?fst_rbind. cbn [fst]. rewrite l_new_internal_value.
    destruct (new_internal Legacy _ _) as [core|] eqn:En; [|reflexivity]. cbn [bind]. apply set_word_pos_value; [exact HG | exact Hg |].
    unfold assert_ in Ea. destruct ((_ && _ && _)%bool) eqn:El; [|discriminate Ea].
    apply andb_prop in El. destruct El as [El _]. apply andb_prop in El. destruct El as [El1 El2]. apply Nat.eqb_eq in El1, El2.
    assert (Bf : forall k, bytes (firstn k state)) by (intros k; rewrite <- (firstn_skipn k state) in Bs; apply Forall_app in Bs; apply Bs).
    assert (Bk : bytes (firstn 8 (skipn 32 state))).
    { rewrite <- (firstn_skipn 32 state) in Bs. apply Forall_app in Bs. destruct Bs as [_ Bs]. rewrite <- (firstn_skipn 8 (skipn 32 state)) in Bs. apply Forall_app in Bs. apply Bs. }
    rewrite new_internal_ok in En by (first [assumption | apply Bf]). assert (Ec : core = mk_state Legacy (firstn 32 state) (firstn 8 (skipn 32 state)) 0) by congruence.
    rewrite Ec. split; [|reflexivity]. unfold b_new. cbn [b_core]. apply mk_state_wf; first [assumption | apply Bf | reflexivity].
Qed.
Print Assumptions C74_faithful.

(** The leaking copy runs the backend that the code runs: its trace is that backend's, behind the
    outcomes of the feature tests. *)
Lemma snd_words (m : LR (list N * list N)) : snd (dol (mem, st') <- m; rret (words_of_bytes mem, st')) = snd m.
Proof. destruct m as [[[b st']|] t]; cbn [rbind rret snd]; [apply app_nil_r|reflexivity]. Qed.
Lemma snd_branch {A} b (f : bool -> LR A) : snd (dol x <- r_branch b; f x) = [Br b] ++ snd (f b).
Proof. unfold r_branch, leak, rbind. destruct (f b) as [y u]. reflexivity. Qed.
Theorem C74_dispatch c p n st buf :
  exists tests, (length tests <= 2)%nat
  /\ snd (generate_lk c p n st buf) = map Br tests ++
     match Isa.rng_backend c p with
     | Isa.BSoft => snd (lift (l_soft_gen_ks_blocks n st))
     | Isa.BSse2 => snd (sse2_rng_inner_lk Legacy n st (bytes_of_words buf))
     | Isa.BAvx2 => snd (avx2_rng_inner_lk n st (bytes_of_words buf))
     | Isa.BAvx512 => []
     | Isa.BNeon => snd (neon_rng_inner_lk Legacy n st (bytes_of_words buf))
     end.
Proof.
  destruct c as [t b a], p as [h5 h2 hs]. unfold generate_lk, Isa.rng_backend. cbv zeta. cbn [c_target c_backend has_avx2 has_sse2].
  destruct b, t, h2, hs; cbv beta iota; rewrite ?snd_branch; cbv beta iota; rewrite ?snd_branch; cbv beta iota; rewrite ?snd_words;
    first [exists []; split; [cbn; lia|reflexivity] | eexists [_]; split; [cbn; lia|reflexivity] | eexists [_; _]; split; [cbn; lia|reflexivity]].
Qed.
Print Assumptions C74_dispatch.

(** ** Two runs *)
(** Same trace, and the same outcome up to [R]. *)
Definition simt {A B} (R : A -> B -> Prop) (m1 : LR A) (m2 : LR B) : Prop :=
  snd m1 = snd m2 /\ match fst m1, fst m2 with Ok x, Ok y => R x y | Panic, Panic => True | _, _ => False end.
Lemma simt_ret {A B} (R : A -> B -> Prop) x y : R x y -> simt R (rret x) (rret y).
Proof. intros H. split; [reflexivity | exact H]. Qed.
Lemma simt_leak {A B} (R : A -> B -> Prop) t x y : R x y -> simt R (leak t (Ok x)) (leak t (Ok y)).
Proof. intros H. split; [reflexivity | exact H]. Qed.
Lemma simt_bind {A B A' B'} (R : A -> B -> Prop) (Q : A' -> B' -> Prop) m1 m2 f g :
  simt R m1 m2 -> (forall x y, R x y -> simt Q (f x) (g y)) -> simt Q (rbind m1 f) (rbind m2 g).
Proof.
  intros [Et Er] H. destruct m1 as [[x|] t], m2 as [[y|] u]; cbn [fst snd] in *; subst u; try contradiction; cbn [rbind].
  - destruct (H x y Er) as [E R']. destruct (f x) as [a ta], (g y) as [b tb]. cbn [fst snd] in *. subst. split; [reflexivity | exact R'].
  - split; [reflexivity | exact I].
Qed.
Lemma simt_refl {A} (m : LR A) : simt eq m m.
Proof. split; [reflexivity|]. destruct (fst m); [reflexivity | exact I]. Qed.
Lemma simt_weaken {A B} (R Q : A -> B -> Prop) m1 m2 : (forall x y, R x y -> Q x y) -> simt R m1 m2 -> simt Q m1 m2.
Proof. intros H [E M]. split; [exact E|]. destruct (fst m1), (fst m2); auto. Qed.
Ltac sb := eapply simt_bind; [apply simt_refl | intros ? ? <-].

Definition place_eq (s1 s2 : list N) : Prop := get s1 12 = get s2 12 /\ get s1 13 = get s2 13.
Definition made (x y : list N * list N) : Prop :=
  place_eq (snd x) (snd y) /\ wf16 (snd x) /\ wf16 (snd y) /\ length (fst x) = 64%nat /\ length (fst y) = 64%nat.
Definition like (r1 r2 : rng) : Prop := kept r1 /\ kept r2 /\ same_place r1 r2.

Section TwoRuns.
  Context (G : list N -> list N -> LR (list N * list N))
    (HS : forall s1 s2 b1 b2, wf16 s1 -> wf16 s2 -> place_eq s1 s2 -> length b1 = 64%nat -> length b2 = 64%nat -> simt made (G s1 b1) (G s2 b2)).

  Lemma like_set r1 r2 i v1 v2 : like r1 r2 -> v1 < M32 -> v2 < M32 -> (i = 12 \/ i = 13 -> v1 = v2)%nat -> (i < 16)%nat ->
    like {| b_core := upd (b_core r1) i v1; b_res := b_res r1; b_idx := b_idx r1 |} {| b_core := upd (b_core r2) i v2; b_res := b_res r2; b_idx := b_idx r2 |}.
  Proof using.
    intros (K1 & K2 & E1 & E2 & E3) H1 H2 Hi Hl. split; [apply kept_set; assumption|]. split; [apply kept_set; assumption|].
    destruct K1 as [[L1 _] _], K2 as [[L2 _] _]. split; [exact E1|]. cbn [b_core].
    split; [destruct (Nat.eq_dec i 12) as [->|Hn] | destruct (Nat.eq_dec i 13) as [->|Hn]].
    1,3: rewrite !get_upd_eq by lia; apply Hi; auto.
    all: rewrite !get_upd_neq by lia; assumption.
  Qed.
  Lemma like_idx r1 r2 j : like r1 r2 -> like {| b_core := b_core r1; b_res := b_res r1; b_idx := j |} {| b_core := b_core r2; b_res := b_res r2; b_idx := j |}.
  Proof using. intros (K1 & K2 & E1 & E2 & E3). repeat split; first [apply K1 | apply K2 | assumption]. Qed.
  Lemma like_made res1 c1 res2 c2 j : made (res1, c1) (res2, c2) -> like {| b_core := c1; b_res := res1; b_idx := j |} {| b_core := c2; b_res := res2; b_idx := j |}.
  Proof using. intros ([A B] & W1 & W2 & L1 & L2). cbn [fst snd] in *. repeat split; first [apply W1 | apply W2 | assumption]. Qed.
  Lemma sim_G r1 r2 : like r1 r2 -> simt made (G (b_core r1) (b_res r1)) (G (b_core r2) (b_res r2)).
  Proof using HS. intros ([W1 L1] & [W2 L2] & _ & E). apply HS; assumption. Qed.

  Lemma sim_reset r1 r2 k : like r1 r2 -> simt like (reset_and_skip_lk G r1 k) (reset_and_skip_lk G r2 k).
  Proof using HS.
    intros H. unfold reset_and_skip_lk. sb. destruct (k =? 0)%nat eqn:?; cbn [r_branch leak fst snd] in *.
    all: match goal with |- simt like (if ?x then _ else _) _ => destruct x end.
    all: try (apply simt_ret, like_idx; assumption).
    all: sb; eapply simt_bind; [apply sim_G; exact H | intros [a b] [a' b'] Hm; apply simt_ret, like_made; exact Hm].
  Qed.
  Lemma idx_eq r1 r2 : like r1 r2 -> b_idx r1 = b_idx r2. Proof using. intros (_ & _ & E & _). exact E. Qed.
  Lemma sim_refill r1 r2 : like r1 r2 -> simt like (refill_lk G r1) (refill_lk G r2).
  Proof using HS.
    intros H. unfold refill_lk. rewrite (idx_eq _ _ H). sb. match goal with |- simt like (if ?x then _ else _) _ => destruct x end.
    - eapply simt_bind; [apply sim_G; exact H | intros [a b] [a' b'] Hm; apply simt_ret, like_made; exact Hm].
    - apply simt_ret. exact H.
  Qed.
  Definition drawn {A} (x y : A * rng) : Prop := like (snd x) (snd y).
  Lemma simt_get l1 l2 i : simt TT (r_get l1 i) (r_get l2 i). Proof using. split; [reflexivity | exact I]. Qed.
  Lemma sim_next_word r1 r2 : like r1 r2 -> simt drawn (next_word_lk G r1) (next_word_lk G r2).
  Proof using HS.
    intros H. unfold next_word_lk. eapply simt_bind; [apply sim_refill; exact H|]. intros q1 q2 Hq. rewrite (idx_eq _ _ Hq).
    eapply simt_bind; [apply simt_get|]. intros x y _. apply simt_ret. unfold drawn. cbn [snd]. apply like_idx. exact Hq.
  Qed.
  Lemma sim_next_u64 r1 r2 : like r1 r2 -> simt drawn (next_u64_lk G r1) (next_u64_lk G r2).
  Proof using HS.
    intros H. unfold next_u64_lk. cbv zeta. rewrite (idx_eq _ _ H). sb. match goal with |- simt drawn (if ?x then _ else _) _ => destruct x end.
    - eapply simt_bind with (R := TT). { eapply simt_bind; [apply simt_get|]. intros ? ? _. eapply simt_bind; [apply simt_get|]. intros ? ? _. apply simt_ret. exact I. }
      intros x y _. apply simt_ret. unfold drawn. cbn [snd]. apply like_idx. exact H.
    - sb. match goal with |- simt drawn (if ?x then _ else _) _ => destruct x end.
      + eapply simt_bind; [apply sim_G; exact H | intros [a b] [a' b'] Hm].
        eapply simt_bind with (R := TT). { eapply simt_bind; [apply simt_get|]. intros ? ? _. eapply simt_bind; [apply simt_get|]. intros ? ? _. apply simt_ret. exact I. }
        intros x y _. apply simt_ret. unfold drawn. cbn [snd]. apply like_made. exact Hm.
      + eapply simt_bind; [apply simt_get|]. intros ? ? _. eapply simt_bind; [apply sim_G; exact H | intros [a b] [a' b'] Hm].
        eapply simt_bind; [apply simt_get|]. intros ? ? _. apply simt_ret. unfold drawn. cbn [snd]. apply like_made. exact Hm.
  Qed.
  Lemma sim_fill fuel : forall r1 r2 len, like r1 r2 -> simt drawn (fill_loop_lk G fuel r1 len) (fill_loop_lk G fuel r2 len).
  Proof using HS.
    induction fuel as [|fuel IH]; intros r1 r2 len H; cbn [fill_loop_lk]; [apply simt_ret; exact H|]. sb.
    match goal with |- simt drawn (if ?x then _ else _) _ => destruct x end; [apply simt_ret; exact H|].
    eapply simt_bind; [apply sim_refill; exact H|]. intros q1 q2 Hq. cbv zeta. rewrite !skipn_length.
    destruct Hq as (K1 & K2 & Hp). rewrite (proj2 K1), (proj2 K2). assert (Hi : b_idx q1 = b_idx q2) by apply Hp. rewrite Hi.
    eapply simt_bind with (R := TT); [apply simt_leak; exact I|]. intros ? ? _.
    eapply simt_bind; [apply IH; apply like_idx; split; [exact K1|]; split; [exact K2 | exact Hp]|]. intros [a b] [a' b'] Hd. apply simt_ret. exact Hd.
  Qed.
  Lemma sim_word_offset r1 r2 : like r1 r2 -> simt eq (word_offset_lk r1) (word_offset_lk r2).
  Proof using. intros H. unfold word_offset_lk. rewrite (idx_eq _ _ H). apply simt_refl. Qed.
  Lemma sim_word_pos r1 r2 : like r1 r2 -> simt eq (get_word_pos_lk r1) (get_word_pos_lk r2).
  Proof using.
    intros (K1 & K2 & E1 & E2 & E3). unfold get_word_pos_lk, word_offset_lk, r_get. rewrite E1, E2, E3. apply simt_refl.
  Qed.
  Lemma sim_block_pos ck r1 r2 : like r1 r2 -> simt eq (rng_get_block_pos_lk ck r1) (rng_get_block_pos_lk ck r2).
  Proof using.
    intros (K1 & K2 & E1 & E2 & E3). unfold rng_get_block_pos_lk, word_offset_lk. rewrite E1.
    assert (El : lift (l_get_block_pos Legacy (b_core r1)) = lift (l_get_block_pos Legacy (b_core r2))).
    { with_strategy transparent [lbind ret rd value trace emit] unfold lift, l_get_block_pos, rd, lbind, ret, value, trace, emit. cbn [fst snd]. rewrite E2, E3. reflexivity. }
    rewrite El. apply simt_refl.
  Qed.
  Lemma sim_set_block_pos r1 r2 pos : like r1 r2 -> simt like (rng_set_block_pos_lk G r1 pos) (rng_set_block_pos_lk G r2 pos).
  Proof using HS.
    intros H. unfold rng_set_block_pos_lk. eapply simt_bind; [apply sim_reset; exact H|]. intros q1 q2 Hq.
    eapply simt_bind with (R := fun c1 c2 => like {| b_core := c1; b_res := b_res q1; b_idx := b_idx q1 |} {| b_core := c2; b_res := b_res q2; b_idx := b_idx q2 |}).
    - split.
      + with_strategy transparent [lbind ret wr value trace emit] unfold lift, l_set_block_pos, wr, lbind, ret, value, trace, emit. reflexivity.
      + unfold lift. cbn [fst]. rewrite !l_set_block_pos_value. cbn [set_block_pos].
        apply (like_set {| b_core := upd (b_core q1) 12 _; b_res := b_res q1; b_idx := b_idx q1 |} {| b_core := upd (b_core q2) 12 _; b_res := b_res q2; b_idx := b_idx q2 |});
          [apply like_set; [exact Hq|..]|..]; try reflexivity; try lia; unfold as_u32; apply N.mod_lt; discriminate.
    - intros c1 c2 Hc. apply simt_ret. exact Hc.
  Qed.
  Lemma sim_set r1 r2 i v1 v2 k1 k2 : like r1 r2 -> v1 < M32 -> v2 < M32 -> (i = 12 \/ i = 13 -> v1 = v2)%nat -> (i < 16)%nat ->
    (forall c1 c2, like {| b_core := c1; b_res := b_res r1; b_idx := b_idx r1 |} {| b_core := c2; b_res := b_res r2; b_idx := b_idx r2 |} -> simt like (k1 c1) (k2 c2)) ->
    simt like (dol c <- r_upd (b_core r1) i v1; k1 c) (dol c <- r_upd (b_core r2) i v2; k2 c).
  Proof using.
    intros H H1 H2 Hi Hl Hk.
    eapply simt_bind with (R := fun c1 c2 => like {| b_core := c1; b_res := b_res r1; b_idx := b_idx r1 |} {| b_core := c2; b_res := b_res r2; b_idx := b_idx r2 |}); [|exact Hk].
    apply simt_leak. apply like_set; assumption.
  Qed.
  Lemma sim_set_word_pos r1 r2 pos : like r1 r2 -> simt like (rng_set_word_pos_lk G r1 pos) (rng_set_word_pos_lk G r2 pos).
  Proof using HS.
    intros H. unfold rng_set_word_pos_lk. cbv zeta. apply sim_set; try assumption; try reflexivity; try lia; try (unfold as_u32; apply N.mod_lt; discriminate).
    intros c1 c2 Hc.
    apply (sim_set {| b_core := c1; b_res := b_res r1; b_idx := b_idx r1 |} {| b_core := c2; b_res := b_res r2; b_idx := b_idx r2 |});
      try assumption; try reflexivity; try lia; try (unfold as_u32; apply N.mod_lt; discriminate).
    intros d1 d2 Hd. apply sim_reset. exact Hd.
  Qed.
  Lemma sim_set_stream r1 r2 s1 s2 : like r1 r2 -> simt like (set_stream_lk G r1 s1) (set_stream_lk G r2 s2).
  Proof using HS.
    intros H. unfold set_stream_lk. cbv zeta. apply sim_set; try assumption; try lia; try (unfold as_u32; apply N.mod_lt; discriminate).
    intros c1 c2 Hc.
    apply (sim_set {| b_core := c1; b_res := b_res r1; b_idx := b_idx r1 |} {| b_core := c2; b_res := b_res r2; b_idx := b_idx r2 |});
      try assumption; try lia; try (unfold as_u32; apply N.mod_lt; discriminate).
    intros d1 d2 Hd. apply sim_set_block_pos. exact Hd.
  Qed.
  Lemma sim_stream r1 r2 : simt TT (get_stream_lk r1) (get_stream_lk r2).
  Proof using. split; [reflexivity | exact I]. Qed.
  Lemma sim_seed r1 r2 : like r1 r2 -> simt (fun a b => length a = 32%nat /\ length b = 32%nat) (get_seed_lk r1) (get_seed_lk r2).
  Proof using. intros H. split; [reflexivity|]. cbn. split; reflexivity. Qed.
  Lemma sim_serialize ck r1 r2 : like r1 r2 -> simt TT (serialize_state_lk ck r1) (serialize_state_lk ck r2).
  Proof using.
    intros H. unfold serialize_state_lk. eapply simt_bind; [apply sim_seed; exact H|]. intros a b [La Lb].
    eapply simt_bind; [apply sim_stream|]. intros s1 s2 _. cbv zeta. eapply simt_bind; [apply sim_word_pos; exact H|]. intros p ? <-.
    eapply simt_bind; [apply simt_refl|]. intros ? ? _. rewrite La, Lb, !to_le_length. eapply simt_bind; [apply simt_refl|]. intros ? ? _. apply simt_ret. exact I.
  Qed.

  (** The same call; stream numbers may differ. *)
  Definition same_call (o1 o2 : rop) : Prop := o1 = o2 \/ exists s1 s2, o1 = SetStream s1 /\ o2 = SetStream s2.
  Lemma sim_step ck r1 r2 o1 o2 : like r1 r2 -> same_call o1 o2 -> simt drawn (rng_step_lk G ck r1 o1) (rng_step_lk G ck r2 o2).
  Proof using HS.
    intros H [->|(s1 & s2 & -> & ->)].
    - destruct o2 as [| |k| |p| |b| |s| |]; cbn [rng_step_lk].
      + eapply simt_bind; [apply sim_next_word; exact H | intros [a b] [a' b'] Hd; apply simt_ret; exact Hd].
      + eapply simt_bind; [apply sim_next_u64; exact H | intros [a b] [a' b'] Hd; apply simt_ret; exact Hd].
      + eapply simt_bind; [apply sim_fill; exact H | intros [a b] [a' b'] Hd; apply simt_ret; exact Hd].
      + eapply simt_bind; [apply sim_word_pos; exact H | intros; apply simt_ret; exact H].
      + eapply simt_bind; [apply sim_set_word_pos; exact H | intros; apply simt_ret; assumption].
      + eapply simt_bind; [apply sim_block_pos; exact H | intros; apply simt_ret; exact H].
      + eapply simt_bind; [apply sim_set_block_pos; exact H | intros; apply simt_ret; assumption].
      + eapply simt_bind; [apply sim_stream | intros; apply simt_ret; exact H].
      + eapply simt_bind; [apply sim_set_stream; exact H | intros; apply simt_ret; assumption].
      + eapply simt_bind; [apply sim_seed; exact H | intros; apply simt_ret; exact H].
      + eapply simt_bind; [apply sim_serialize; exact H | intros; apply simt_ret; exact H].
    - cbn [rng_step_lk]. eapply simt_bind; [apply sim_set_stream; exact H | intros; apply simt_ret; assumption].
  Qed.
  Lemma sim_run ck h1 : forall h2 r1 r2, like r1 r2 -> Forall2 same_call h1 h2 -> simt drawn (rng_run_lk G ck r1 h1) (rng_run_lk G ck r2 h2).
  Proof using HS.
    induction h1 as [|o1 h1 IH]; intros h2 r1 r2 H F; inversion F as [|? o2 ? t2 Ho Ht]; subst; cbn [rng_run_lk]; [apply simt_ret; exact H|].
    eapply simt_bind; [apply sim_step; eassumption|]. intros [x a] [y b] Hd. eapply simt_bind; [apply IH; [exact Hd | exact Ht]|].
    intros [xs a'] [ys b'] Hd'. apply simt_ret. exact Hd'.
  Qed.
End TwoRuns.

Lemma simt_ok {A B} (m1 : LR A) (m2 : LR B) : (exists x, fst m1 = Ok x) -> (exists y, fst m2 = Ok y) -> snd m1 = snd m2 -> simt TT m1 m2.
Proof. intros [x Ex] [y Ey] E. split; [exact E|]. rewrite Ex, Ey. exact I. Qed.
Lemma generate_lk_trace c p n s1 s2 b1 b2 : wf16 s1 -> wf16 s2 -> length b1 = 64%nat -> length b2 = 64%nat ->
  snd (generate_lk c p n s1 b1) = snd (generate_lk c p n s2 b2).
Proof.
  intros H1 H2 L1 L2.
  assert (M1 : length (bytes_of_words b1) = 256%nat) by (rewrite bytes_of_words_length, L1; reflexivity).
  assert (M2 : length (bytes_of_words b2) = 256%nat) by (rewrite bytes_of_words_length, L2; reflexivity).
  destruct (C51_rng Legacy n s1 (bytes_of_words b1) H1 M1) as ((a1 & A1 & _) & (d1 & D1 & _) & (e1 & E1 & _)).
  destruct (C51_rng Legacy n s2 (bytes_of_words b2) H2 M2) as ((a2 & A2 & _) & (d2 & D2 & _) & (e2 & E2 & _)).
  destruct (C57_rng Legacy n s1 s2 _ _ H1 H2 M1 M2) as (T1 & T2 & T3).
  assert (Ts : trace (l_soft_gen_ks_blocks n s1) = trace (l_soft_gen_ks_blocks n s2)).
  { unfold l_soft_gen_ks_blocks. rewrite !l_rng_blocks_trace. destruct H1 as [Q1 _], H2 as [Q2 _]. rewrite Q1, Q2. reflexivity. }
  assert (W : forall (m1 m2 : LR (list N * list N)), simt TT m1 m2 ->
    simt TT (dol (mem, st') <- m1; rret (words_of_bytes mem, st')) (dol (mem, st') <- m2; rret (words_of_bytes mem, st'))).
  { intros m1 m2 Hm. eapply simt_bind; [exact Hm|]. intros [x x'] [y y'] _. apply simt_ret. exact I. }
  assert (S1 : simt TT (lift (l_soft_gen_ks_blocks n s1)) (lift (l_soft_gen_ks_blocks n s2))) by (split; [exact Ts | exact I]).
  assert (S2 := W _ _ (simt_ok (sse2_rng_inner_lk Legacy n s1 (bytes_of_words b1)) (sse2_rng_inner_lk Legacy n s2 (bytes_of_words b2))
    ltac:(rewrite sse2_rng_value; eauto) ltac:(rewrite sse2_rng_value; eauto) T1)).
  assert (S3 := W _ _ (simt_ok (avx2_rng_inner_lk n s1 (bytes_of_words b1)) (avx2_rng_inner_lk n s2 (bytes_of_words b2))
    ltac:(rewrite avx2_rng_value; eauto) ltac:(rewrite avx2_rng_value; eauto) T2)).
  assert (S4 := W _ _ (simt_ok (neon_rng_inner_lk Legacy n s1 (bytes_of_words b1)) (neon_rng_inner_lk Legacy n s2 (bytes_of_words b2))
    ltac:(rewrite neon_rng_value; eauto) ltac:(rewrite neon_rng_value; eauto) T3)).
  cut (simt TT (generate_lk c p n s1 b1) (generate_lk c p n s2 b2)); [intros [E _]; exact E|].
  unfold generate_lk. cbv zeta.
  destruct (c_backend c); try exact S1; destruct (c_target c); try exact S1; try exact S2; try exact S3; try exact S4.
  all: sb; match goal with |- simt TT (if ?x then _ else _) _ => destruct x end; try exact S3.
  all: sb; match goal with |- simt TT (if ?x then _ else _) _ => destruct x end; try exact S2; exact S1.
Qed.
Lemma generate_lk_sim c p n s1 s2 b1 b2 : wf16 s1 -> wf16 s2 -> place_eq s1 s2 -> length b1 = 64%nat -> length b2 = 64%nat ->
  simt made (generate_lk c p n s1 b1) (generate_lk c p n s2 b2).
Proof.
  intros H1 H2 [E12 E13] L1 L2. split; [apply generate_lk_trace; assumption|].
  rewrite !generate_lk_value by assumption. destruct (gen_64 c p n s1 H1) as [A1 B1], (gen_64 c p n s2 H2) as [A2 B2].
  split; [|repeat split; first [assumption | apply B1 | apply B2]].
  unfold rng_gen. rewrite !generate_ok by assumption. cbn [snd adv]. unfold place_eq, ctr64. cbv zeta.
  destruct H1 as [Q1 _], H2 as [Q2 _].
  rewrite !(get_upd_neq (upd _ 12 _)) by lia. rewrite !get_upd_eq by (rewrite ?upd_length; lia). rewrite E12, E13. split; reflexivity.
Qed.

(** Two generators at the same place, whatever their seeds, streams and words in store; the
    same calls, except that the stream numbers given may differ.  The runs branch alike and touch
    the same addresses, and if one panics so does the other. *)
Theorem C74_interface c p n ck r1 r2 h1 h2 : kept r1 -> kept r2 -> same_place r1 r2 -> Forall2 same_call h1 h2 ->
  snd (rng_run_lk (generate_lk c p n) ck r1 h1) = snd (rng_run_lk (generate_lk c p n) ck r2 h2)
  /\ (fst (rng_run_lk (generate_lk c p n) ck r1 h1) = Panic <-> fst (rng_run_lk (generate_lk c p n) ck r2 h2) = Panic).
Proof.
  intros K1 K2 Hp Hh.
  destruct (sim_run (generate_lk c p n) (generate_lk_sim c p n) ck h1 h2 r1 r2 (conj K1 (conj K2 Hp)) Hh) as [E M].
  split; [exact E|]. destruct (fst (rng_run_lk _ ck r1 h1)), (fst (rng_run_lk _ ck r2 h2)); try contradiction; split; congruence.
Qed.
Print Assumptions C74_interface.

Lemma mk_ctr k iv j : length k = 32%nat -> (j = 12 \/ j = 13)%nat -> get (mk_state Legacy k iv 0) j = 0.
Proof.
  intros H Hj. unfold mk_state. assert (L : length (words_of_bytes k) = 8%nat) by (apply words_of_bytes_length; exact H).
  destruct (words_of_bytes k) as [|k0 [|k1 [|k2 [|k3 [|k4 [|k5 [|k6 [|k7 [|]]]]]]]]]; try discriminate L. destruct Hj as [-> | ->]; reflexivity.
Qed.
(** Making a generator from a seed, and restoring one: the seed and the stream do not show, the
    position restored does. *)
Theorem C74_start c p n seed1 seed2 state1 state2 :
  bytes seed1 -> bytes seed2 -> length seed1 = 32%nat -> length seed2 = 32%nat ->
  bytes state1 -> bytes state2 -> length state1 = 49%nat -> length state2 = 49%nat -> skipn 40 state1 = skipn 40 state2 ->
  snd (rng_from_seed_lk seed1) = snd (rng_from_seed_lk seed2)
  /\ snd (deserialize_state_lk (generate_lk c p n) state1) = snd (deserialize_state_lk (generate_lk c p n) state2).
Proof.
  intros B1 B2 L1 L2 D1 D2 M1 M2 E.
  assert (New : forall k1 k2 i1 i2, bytes k1 -> bytes k2 -> bytes i1 -> bytes i2 -> length k1 = 32%nat -> length k2 = 32%nat -> length i1 = 8%nat -> length i2 = 8%nat ->
    simt (fun a b => like (b_new a) (b_new b)) (value (l_new_internal Legacy k1 i1), trace (l_new_internal Legacy k1 i1)) (value (l_new_internal Legacy k2 i2), trace (l_new_internal Legacy k2 i2))).
  { intros k1 k2 i1 i2 A1 A2 A3 A4 A5 A6 A7 A8. split; cbn [fst snd]; [apply l_new_internal_trace; congruence|].
    rewrite !l_new_internal_value, !new_internal_ok by assumption.
    split; [split; [apply mk_state_wf; first [assumption | reflexivity] | reflexivity]|].
    split; [split; [apply mk_state_wf; first [assumption | reflexivity] | reflexivity]|]. split; [reflexivity|]. unfold b_new. cbn [b_core].
    split; [exact (eq_trans (mk_ctr k1 i1 12 A5 (or_introl eq_refl)) (eq_sym (mk_ctr k2 i2 12 A6 (or_introl eq_refl)))) |
            exact (eq_trans (mk_ctr k1 i1 13 A5 (or_intror eq_refl)) (eq_sym (mk_ctr k2 i2 13 A6 (or_intror eq_refl))))]. }
  assert (Z : bytes (repeat 0 8)) by (repeat constructor).
  split.
  - apply (simt_bind (fun a b => like (b_new a) (b_new b)) like); [apply New; first [assumption | reflexivity]|]. intros x y H. apply simt_ret. exact H.
  - cut (simt like (deserialize_state_lk (generate_lk c p n) state1) (deserialize_state_lk (generate_lk c p n) state2)); [intros [H _]; exact H|].
    unfold deserialize_state_lk. cbv zeta. rewrite <- E. rewrite !firstn_length, !skipn_length, M1, M2. sb.
    assert (Bf : forall s k, bytes s -> bytes (firstn k s)) by (intros s k Bs; rewrite <- (firstn_skipn k s) in Bs; apply Forall_app in Bs; apply Bs).
    assert (Bk : forall s k, bytes s -> bytes (skipn k s)) by (intros s k Bs; rewrite <- (firstn_skipn k s) in Bs; apply Forall_app in Bs; apply Bs).
    eapply simt_bind; [apply New; try (apply Bf; first [assumption | apply Bk; assumption]); rewrite firstn_length, ?skipn_length, ?M1, ?M2; reflexivity|].
    intros c1 c2 H. apply sim_set_word_pos; [apply generate_lk_sim | exact H].
Qed.
Print Assumptions C74_start.

(** ** [==] *)
(** With a memory comparison that shows its result only, [==] shows the places, whether the seeds
    agree and, if so, whether the streams do. *)
Theorem C74_eq_at_once a b a' b' : kept a -> kept b -> kept a' -> kept b' -> same_place a a' -> same_place b b' ->
  (get_seed a = get_seed b <-> get_seed a' = get_seed b') -> (get_stream a = get_stream b <-> get_stream a' = get_stream b') ->
  snd (rng_eq_lk at_once a b) = snd (rng_eq_lk at_once a' b').
Proof.
  intros Ka Kb Ka' Kb' Pa Pb Hs Ht.
  assert (La : like a a') by (split; [exact Ka|]; split; [exact Ka' | exact Pa]).
  assert (Lb : like b b') by (split; [exact Kb|]; split; [exact Kb' | exact Pb]).
  cut (simt TT (rng_eq_lk at_once a b) (rng_eq_lk at_once a' b')); [intros [E _]; exact E|].
  assert (Sd : forall r r', kept r -> kept r' -> simt (fun x y => x = get_seed r /\ y = get_seed r') (get_seed_lk r) (get_seed_lk r')).
  { intros r r' Hr Hr'. split; [reflexivity|]. rewrite !get_seed_value by first [apply Hr | apply Hr']. split; reflexivity. }
  unfold rng_eq_lk. eapply simt_bind; [apply Sd; assumption|]. intros x x' [-> ->].
  eapply simt_bind; [apply Sd; assumption|]. intros y y' [-> ->].
  assert (Es : bytes_eqb (get_seed a) (get_seed b) = bytes_eqb (get_seed a') (get_seed b')) by (apply Bool.eq_true_iff_eq; rewrite !bytes_eqb_eq; exact Hs).
  unfold at_once. rewrite Es. sb. sb. match goal with |- simt TT (if ?x then _ else _) _ => destruct x end; [|apply simt_ret; exact I].
  assert (St : forall r r', simt (fun x y => x = get_stream r /\ y = get_stream r') (get_stream_lk r) (get_stream_lk r')) by (intros; split; [reflexivity | split; reflexivity]).
  eapply simt_bind; [apply St|]. intros u u' [-> ->]. eapply simt_bind; [apply St|]. intros w w' [-> ->].
  assert (Et : (get_stream a =? get_stream b) = (get_stream a' =? get_stream b')) by (apply Bool.eq_true_iff_eq; rewrite !N.eqb_eq; exact Ht).
  rewrite Et. sb. match goal with |- simt TT (if ?x then _ else _) _ => destruct x end; [|apply simt_ret; exact I].
  eapply simt_bind; [apply sim_word_pos; exact La|]. intros ? ? <-. eapply simt_bind; [apply sim_word_pos; exact Lb|]. intros ? ? <-. apply simt_ret. exact I.
Qed.
Print Assumptions C74_eq_at_once.

(** With one that stops at the first difference, the length of the run tells how many bytes agree. *)
Fixpoint matched (t : list event) : nat :=
  match t with
  | Br true :: Rd _ :: Br true :: t' => S (matched t')
  | _ => O
  end.
Fixpoint common (a b : list N) : nat :=
  match a, b with
  | x :: a', y :: b' => if x =? y then S (common a' b') else O
  | _, _ => O
  end.
Lemma matched_same a : forall i b t, length a = length b -> matched (snd (same_bytes_lk i a b) ++ t) = common a b.
Proof.
  induction a as [|x a IH]; intros i [|y b] t H; try discriminate; [reflexivity|].
  cbn [length] in H. cbn [same_bytes_lk common]. destruct (x =? y); [|reflexivity].
  specialize (IH (S i) b t ltac:(lia)). unfold r_branch, leak, rbind. destruct (same_bytes_lk (S i) a b) as [res tr]. cbn [app snd] in *. cbn [matched]. rewrite IH. reflexivity.
Qed.
(** What an observer of one comparison learns: the two seeds are read first (25 events each). *)
Definition observed (target : rng) (guess : list N) : nat :=
  match rng_from_seed guess with
  | Ok g => matched (skipn 50 (snd (rng_eq_lk (same_bytes_lk 0) target g)))
  | Panic => O
  end.
Lemma seed_of_new guess : bytes guess -> length guess = 32%nat -> exists g, rng_from_seed guess = Ok g /\ kept g /\ get_seed g = guess.
Proof.
  intros B L. unfold rng_from_seed. rewrite new_internal_ok by first [assumption | reflexivity | repeat constructor].
  eexists. split; [reflexivity|]. split.
  - split; [apply mk_state_wf; first [assumption | reflexivity | repeat constructor] | reflexivity].
  - unfold get_seed, b_new, mk_state, slice. cbn [b_core].
    rewrite skipn_app_len by reflexivity. rewrite firstn_app_len by (apply (words_of_bytes_length 8 guess L)).
    fold (bytes_of_words (words_of_bytes guess)). apply (bytes_of_words_of_bytes 8); assumption.
Qed.
Lemma seed_32 r : kept r -> length (get_seed r) = 32%nat.
Proof. intros [[H _] _]. unfold get_seed. fold (bytes_of_words (slice (b_core r) 4 8)). rewrite bytes_of_words_length. unfold slice. rewrite firstn_length, skipn_length, H. reflexivity. Qed.
Lemma observed_common target guess : kept target -> bytes guess -> length guess = 32%nat -> observed target guess = common (get_seed target) guess.
Proof.
  intros K B L. unfold observed. destruct (seed_of_new guess B L) as (g & -> & Kg & Eg).
  unfold rng_eq_lk. assert (T : forall r, kept r -> exists t, length t = 25%nat /\ get_seed_lk r = (Ok (get_seed r), t)).
  { intros r Hr. exists (snd (get_seed_lk r)). split; [reflexivity|]. rewrite <- (get_seed_value r) by apply Hr. apply surjective_pairing. }
  destruct (T _ K) as (t1 & L1 & E1), (T _ Kg) as (t2 & L2 & E2). rewrite E1, E2. cbn [rbind snd]. rewrite Eg.
  assert (Hl : length (get_seed target) = length guess) by (rewrite L; apply seed_32, K).
  assert (M := fun t => matched_same (get_seed target) 0 guess t Hl).
  assert (Ev := same_bytes_value (get_seed target) 0 guess).
  destruct (same_bytes_lk 0 (get_seed target) guess) as [res tr]. cbn [fst snd] in *. subst res. cbn [rbind].
  match goal with |- context [rbind (r_branch ?b) ?f] => destruct (rbind (r_branch b) f) as [r5 t5] end.
  cbn [snd]. rewrite <- (M t5). f_equal. rewrite (skipn_app 50 t1), L1. rewrite (skipn_all2 t1) by lia. cbn [app]. rewrite (skipn_app (50 - 25) t2), L2.
  rewrite (skipn_all2 t2) by lia. reflexivity.
Qed.

(** The attack: byte after byte, try every value; at most 256 comparisons for each byte. *)
Fixpoint find_byte (O : list N -> nat) (known : list N) (vs : list N) : N * nat :=
  match vs with
  | [] => (0, 0%nat)
  | v :: vs' => if (length known <? O (known ++ v :: repeat 0%N (31 - length known)))%nat then (v, 1%nat)
                else let (x, q) := find_byte O known vs' in (x, S q)
  end.
Fixpoint recover (k : nat) (O : list N -> nat) (known : list N) : list N * nat :=
  match k with
  | O => (known, 0%nat)
  | S k' => let (v, q) := find_byte O known (map N.of_nat (seq 0 256)) in
            let (l, q') := recover k' O (known ++ [v]) in (l, (q + q')%nat)
  end.

Lemma common_app p : forall a b, common (p ++ a) (p ++ b) = (length p + common a b)%nat.
Proof. induction p as [|x p IH]; intros a b; cbn [app common length Nat.add]; [reflexivity|]. rewrite N.eqb_refl, IH. reflexivity. Qed.
Lemma find_byte_ok O known rest w vs : (forall v, v < 256 -> O (known ++ v :: repeat 0%N (31 - length known)) = common (known ++ w :: rest) (known ++ v :: repeat 0%N (31 - length known))) ->
  Forall (fun v => v < 256) vs -> In w vs -> fst (find_byte O known vs) = w /\ (snd (find_byte O known vs) <= length vs)%nat.
Proof.
  intros HO Hv Hin. induction vs as [|v vs IH]; [destruct Hin|]. inversion Hv as [|? ? Hv1 Hv2]; subst. cbn [find_byte].
  rewrite HO by exact Hv1. rewrite common_app. cbn [common]. destruct (N.eqb_spec w v) as [->|Hn].
  - destruct (Nat.ltb_spec (length known) (length known + S (common rest (repeat 0%N (31 - length known))))) as [_|F]; [|lia]. cbn [fst snd length]. split; [reflexivity | lia].
  - destruct (Nat.ltb_spec (length known) (length known + 0)) as [F|_]; [lia|].
    destruct Hin as [->|Hin]; [congruence|]. destruct (IH Hv2 Hin) as [A B]. destruct (find_byte O known vs) as [x q]. cbn [fst snd length] in *. split; [exact A | lia].
Qed.
Lemma all_values : Forall (fun v => v < 256) (map N.of_nat (seq 0 256)) /\ forall w, w < 256 -> In w (map N.of_nat (seq 0 256)).
Proof.
  split.
  - apply Forall_forall. intros x Hx. apply in_map_iff in Hx. destruct Hx as (i & <- & Hi). apply in_seq in Hi. lia.
  - intros w Hw. apply in_map_iff. exists (N.to_nat w). split; [lia|]. apply in_seq. lia.
Qed.
Lemma recover_ok O seed : bytes seed -> length seed = 32%nat -> (forall g, bytes g -> length g = 32%nat -> O g = common seed g) ->
  forall k known rest, seed = known ++ rest -> length rest = k -> fst (recover k O known) = seed /\ (snd (recover k O known) <= k * 256)%nat.
Proof.
  intros Bs Ls HO. induction k as [|k IH]; intros known rest E Lr.
  - destruct rest; [|discriminate]. rewrite app_nil_r in E. cbn [recover fst snd]. split; [congruence | lia].
  - destruct rest as [|w rest]; [discriminate|]. cbn [length] in Lr.
    assert (Lk : (length known + S k = 32)%nat) by (rewrite E, app_length in Ls; cbn [length] in Ls; lia).
    assert (Bk : bytes known /\ w < 256). { rewrite E in Bs. apply Forall_app in Bs. destruct Bs as [A B]. inversion B; subst. split; assumption. }
    destruct Bk as [Bk Hw]. destruct all_values as [Va Vb].
    destruct (find_byte_ok O known rest w (map N.of_nat (seq 0 256))) as [A B]; [|exact Va | apply Vb, Hw|].
    { intros v Hv. rewrite <- E. apply HO.
      - apply Forall_app. split; [exact Bk|]. constructor; [exact Hv|]. apply Forall_forall. intros x Hx. apply repeat_spec in Hx. subst x. reflexivity.
      - rewrite app_length. cbn [length]. rewrite repeat_length. lia. }
    rewrite map_length, seq_length in B. cbn [recover]. destruct (find_byte O known _) as [v q]. cbn [fst snd] in A, B. subst v.
    destruct (IH (known ++ [w]) rest) as [C D]; [rewrite <- app_assoc; exact E | lia|].
    destruct (recover k O (known ++ [w])) as [l q']. cbn [fst snd] in *. split; [exact C | lia].
Qed.

(** Whoever can time comparisons with generators made from seeds of their choice gets the
    seed of the target, whatever it is, after at most 8192 comparisons. *)
Theorem C74_eq_refuted target : kept target ->
  fst (recover 32 (observed target) []) = get_seed target /\ (snd (recover 32 (observed target) []) <= 32 * 256)%nat.
Proof.
  intros K. assert (B : bytes (get_seed target)) by (unfold get_seed; apply bytes_of_words_bytes).
  apply (recover_ok (observed target) (get_seed target) B (seed_32 _ K)) with (rest := get_seed target); [|reflexivity | apply seed_32, K].
  intros g Bg Lg. apply observed_common; assumption.
Qed.
Print Assumptions C74_eq_refuted.

(** Two generators with different seeds and streams at one place; a history with two refills; and
    the first bytes of an attack. *)
Definition tm_seed1 : list N := map N.of_nat (seq 1 32).
Definition tm_seed2 : list N := repeat 7 32.
Definition tm_rng (seed : list N) : rng := match rng_from_seed seed with Ok r => r | Panic => {| b_core := []; b_res := []; b_idx := 0 |} end.
Example C74_interface_satisfiable :
  kept (tm_rng tm_seed1) /\ kept (tm_rng tm_seed2) /\ same_place (tm_rng tm_seed1) (tm_rng tm_seed2)
  /\ Forall2 same_call [NextU32; SetStream 5; Fill 9; SetWordPos 33; NextU64] [NextU32; SetStream 6; Fill 9; SetWordPos 33; NextU64]
  /\ get_seed (tm_rng tm_seed1) <> get_seed (tm_rng tm_seed2)
  /\ fst (rng_run_lk (generate_lk {| c_target := X86; c_backend := CfgSoft; c_avx512 := false |} {| has_avx512 := false; has_avx2 := false; has_sse2 := true |} 4) true (tm_rng tm_seed1) [NextU32; NextU64])
     <> fst (rng_run_lk (generate_lk {| c_target := X86; c_backend := CfgSoft; c_avx512 := false |} {| has_avx512 := false; has_avx2 := false; has_sse2 := true |} 4) true (tm_rng tm_seed2) [NextU32; NextU64]).
Proof.
  destruct (seed_of_new tm_seed1) as (a & A1 & A2 & A3); [repeat constructor | reflexivity|].
  destruct (seed_of_new tm_seed2) as (b & B1 & B2 & B3); [repeat constructor | reflexivity|].
  split; [unfold tm_rng; rewrite A1; exact A2|]. split; [unfold tm_rng; rewrite B1; exact B2|].
  split; [repeat split|]. split; [repeat (constructor; [first [left; reflexivity | right; exists 5, 6; split; reflexivity]|]); constructor|].
  split; [unfold tm_rng; rewrite A1, B1, A3, B3; discriminate|].
  vm_compute. discriminate.
Qed.
Example C74_eq_example :
  observed (tm_rng tm_seed1) tm_seed2 = 0%nat
  /\ observed (tm_rng tm_seed1) ([1; 2; 3] ++ repeat 0 29) = 3%nat
  /\ find_byte (observed (tm_rng tm_seed1)) [1; 2] (map N.of_nat (seq 0 256)) = (3, 4%nat)
  /\ snd (rng_eq_lk at_once (tm_rng tm_seed1) (tm_rng tm_seed2)) = snd (rng_eq_lk at_once (tm_rng tm_seed1) (tm_rng ([1; 2; 3] ++ repeat 0 29))).
Proof. repeat split; vm_compute; reflexivity. Qed.
