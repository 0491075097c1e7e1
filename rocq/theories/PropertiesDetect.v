(** Final theorem C89: feature detection shared by threads, and ciphers whose backend changes
    while they are in use. *)
From Coq Require Import String.
From Verif Require Import Word Res WordLemmas PropCommon SpecStream SpecChaCha ChaChaCore ChaChaProofs ChaChaDispatch XChaCha ChaChaDispatchProofs
  CipherWrapper WrapperProofs Ciphers CiphersProofs StreamLemmas PropertiesStream Fast Detect.
From Coq Require Import ZArith Lia ZifyBool ZifyNat ZifyN.
Ltac Zify.zify_post_hook ::= Z.div_mod_to_equations.
Local Open Scope N_scope.
Local Open Scope list_scope.

(** ** Detection *)
(** The bytes before anything has run. *)
Definition unknown : cells := fun _ => 255.
(** No thread starts in the middle of an [init]. *)
Definition starts (ts : threads) : Prop := forall t f x, ~ In (Stored f x) (ts t).
(** [x] is what some CPU of the schedule says about [f]. *)
Definition detected (sched : list (nat * (feature -> bool))) (f : feature) (x : bool) : Prop :=
  exists t d, In (t, d) sched /\ d f = x.

Lemma feature_eqb_ok a b : feature_eqb a b = true <-> a = b.
Proof. destruct a, b; cbn; split; congruence. Qed.
Section Inv.
  Context (D : feature -> bool -> Prop).
  Definition good_cell (m : cells) : Prop := forall f, m f = 255 \/ exists x, D f x /\ m f = if x then 1 else 0.
  Definition good_threads (ts : threads) : Prop := forall t f x, In (Stored f x) (ts t) -> D f x.
  (** The answers from here on; [known f]: an [init] of [f] has returned. *)
  Fixpoint answers_ok (known : feature -> Prop) (evs : list event) : Prop :=
    match evs with
    | [] => True
    | Token f :: evs' => answers_ok (fun g => g = f \/ known g) evs'
    | Answer f x :: evs' => (known f -> D f x) /\ answers_ok known evs'
    end.
  Lemma run_answers sched : (forall t d f, In (t, d) sched -> D f (d f)) ->
    forall m ts (known : feature -> Prop), good_cell m -> good_threads ts -> (forall f, known f -> m f <> 255) ->
    answers_ok known (t_run sched m ts).
  Proof.
    intros Hd. induction sched as [|[t d] s IH]; intros m ts known Hm Ht Hk; cbn [t_run]; [exact Logic.I|].
    assert (Hs : forall t d f, In (t, d) s -> D f (d f)) by (intros t0 d0 f H; apply (Hd t0); right; exact H).
    assert (Hhd : forall f, D f (d f)) by (intros f; apply (Hd t d); left; reflexivity). specialize (IH Hs). clear Hd Hs.
    assert (Hrest : forall l, (forall f x, In (Stored f x) l -> D f x) -> good_threads (fun u => if (u =? t)%nat then l else ts u)).
    { intros l Hl u f x H. cbv beta in H. destruct (u =? t)%nat; [apply Hl; exact H|apply (Ht u); exact H]. }
    assert (Hin : forall f x, In (Stored f x) (ts t) -> D f x) by (intros; apply (Ht t); assumption).
    unfold t_step. destruct (ts t) as [|[f|f x|f] l].
    - cbn [app]. apply IH; [exact Hm| |exact Hk]. apply Hrest. intros ? ? [].
    - unfold UNKNOWN. destruct (N.eqb_spec (m f) 255) as [E|E].
      + cbn [app]. apply IH; [exact Hm| |exact Hk]. apply Hrest. intros g x [H|H]; [injection H as <- <-; apply Hhd|apply Hin; right; exact H].
      + cbn [app answers_ok]. apply IH; [exact Hm| |].
        * apply Hrest. intros g x H. apply Hin. right. exact H.
        * intros g [->|G]; [exact E|apply Hk; exact G].
    - cbn [app answers_ok]. assert (Dx : D f x) by (apply Hin; left; reflexivity). apply IH.
      + intros g. unfold set_cell. destruct (feature_eqb f g) eqn:Eg; [|apply Hm]. apply feature_eqb_ok in Eg. subst g.
        right. exists x. auto.
      + apply Hrest. intros g y H. apply Hin. right. exact H.
      + intros g G. unfold set_cell. destruct (feature_eqb f g) eqn:Eg; [destruct x; discriminate|].
        destruct G as [->|G]; [|apply Hk; exact G]. rewrite (proj2 (feature_eqb_ok f f) eq_refl) in Eg. discriminate.
    - cbn [app answers_ok]. split.
      + intros G. destruct (Hm f) as [E|(x & Dx & E)]; [contradiction (Hk f G E)|]. rewrite E. destruct x; exact Dx.
      + apply IH; [exact Hm| |exact Hk]. apply Hrest. intros g x H. apply Hin. right. exact H.
  Qed.
End Inv.

(** In the order of events, an answer about [f] after some [init] of [f] has returned is what
    some CPU said. *)
Lemma answers_split D evs : forall known, answers_ok D known evs ->
  forall a b f x, evs = a ++ Answer f x :: b -> known f \/ In (Token f) a -> D f x.
Proof.
  induction evs as [|v evs IH]; intros known A a b f x E K; [destruct a; discriminate E|].
  destruct a as [|v' a]; cbn [app] in E; injection E as -> E.
  - cbn [answers_ok] in A. destruct A as [A _]. destruct K as [K|[]]. apply A; exact K.
  - destruct v' as [g|g y]; cbn [answers_ok] in A.
    + apply (IH _ A a b f x E). destruct K as [K|[K|K]]; [left; right; exact K|injection K as ->; left; left; reflexivity|right; exact K].
    + apply (IH _ (proj2 A) a b f x E). destruct K as [K|[K|K]]; [left; exact K|discriminate K|right; exact K].
Qed.
Theorem C89_detection sched ts a f x b : starts ts ->
  t_run sched unknown ts = a ++ Answer f x :: b -> In (Token f) a -> detected sched f x.
Proof.
  intros Hs E Ht. refine (answers_split (detected sched) _ (fun _ => False) _ a b f x E (or_intror Ht)).
  apply run_answers.
  - intros t d g H. exists t, d. split; [exact H|reflexivity].
  - intros g. left. reflexivity.
  - intros t g y H. destruct (Hs t g y H).
  - intros g [].
Qed.
Print Assumptions C89_detection.
(** Where all CPUs are alike, all threads always get the same answer. *)
Theorem C89_one_cpu sched ts a f x b detect : starts ts -> (forall t d, In (t, d) sched -> forall g, d g = detect g) ->
  t_run sched unknown ts = a ++ Answer f x :: b -> In (Token f) a -> x = detect f.
Proof.
  intros Hs Hd E Ht. destruct (C89_detection sched ts a f x b Hs E Ht) as (t & d & H & <-). apply (Hd t); exact H.
Qed.
Print Assumptions C89_one_cpu.
(** The token matters: an answer without one can be wrong. *)
Theorem C89_token : exists sched ts, starts ts /\ t_run sched unknown ts = [Answer FAvx2 false] /\ ~ detected sched FAvx2 false.
Proof.
  exists [(0%nat, fun _ => true)], (fun _ => [Get FAvx2]). split; [intros t f x [H|[]]; discriminate|]. split; [reflexivity|].
  intros (t & d & [H|[]] & E). injection H as <- <-. discriminate.
Qed.
Print Assumptions C89_token.

(** ** Changing backends *)
Lemma chacha_like_m o e v n key iv blk h :
  List.length key = 32%nat -> List.length iv = nonce_len v -> bytes key -> bytes iv ->
  (forall c k, blocks_from v n k (mk_state v key iv c) = flat_map (fun i => blk (c + N.of_nat i)) (seq 0 k)) ->
  Forall (call_ok e) h ->
  run_core (chacha_score_m o (e_usz e) v n) (Some (chacha_seek_m v)) (at_start (Ok (mk_state v key iv 0))) h
  = expect (run_spec (ks_of_blocks 64 blk) (Some {| l_bs := 64; l_blocks := ctr_mod v |}) false 0 h).
Proof.
  intros Hk Hi Bk Bi Hb Hh.
  assert (Hwf : forall c, wf16 (mk_state v key iv c)) by (intros; apply mk_state_wf; assumption).
  assert (Hlen : forall i, List.length (blk i) = 64%nat).
  { intros i. pose proof (blocks_from_length v n 1 _ (Hwf i)) as H. rewrite Hb in H.
    cbn [seq flat_map] in H. rewrite app_nil_r in H. change (N.of_nat 0) with 0 in H. rewrite N.add_0_r in H. exact H. }
  set (C := chacha_score_m o (e_usz e) v n).
  set (Rep := fun (st : nat * list N) c => snd st = mk_state v key iv c).
  assert (Hgen : forall st c k, Rep st c -> True -> exists st',
    sc_gen C k st = Ok (ks_range (ks_of_blocks 64 blk) (N.of_nat (sc_bs C) * c) (sc_bs C * k), st') /\ Rep st' (c + N.of_nat k)).
  { intros [i st] c k E _. unfold Rep in E. cbn [snd] in E. subst st. unfold C. cbn [sc_gen sc_bs chacha_score_m].
    rewrite core_write_ok by apply Hwf. cbn [bind]. rewrite Hb.
    exists (S i, adv v (N.of_nat k) (mk_state v key iv c)). split; [|unfold Rep; cbn [snd]; apply adv_mk_state; exact Hk].
    f_equal. f_equal. apply (ks_of_blocks_range 64); [lia | exact Hlen]. }
  assert (HS : forall (c : N) (a b : nat), True -> True /\ True) by auto.
  pose proof (WRep_new C (ks_of_blocks 64 blk) Rep (fun _ _ => True) ltac:(cbn; lia) Hgen HS (0%nat, mk_state v key iv 0) 0 eq_refl) as HW.
  rewrite N.mul_0_r in HW.
  assert (Hs : forall (c : N) (k : nat), c mod sk_mod (chacha_seek_m v) + N.of_nat k < sk_mod (chacha_seek_m v) -> True) by auto.
  pose proof (run_seekable C (ks_of_blocks 64 blk) Rep (fun _ _ => True) ltac:(cbn; lia) Hgen HS
    (chacha_seek_m v) (e_usz e) false eq_refl) as R.
  specialize (R ltac:(destruct v; reflexivity)).
  specialize (R ltac:(intros [i st] c E; unfold Rep in E; cbn [snd] in E; subst st; apply get_pos_mk; exact Hk)).
  specialize (R ltac:(intros [i st] c b E Hb'; unfold Rep in *; cbn [snd] in E; subst st; cbn [sk_set chacha_seek_m snd fst]; apply set_pos_mk; assumption)).
  specialize (R ltac:(intros [i st] c E; unfold Rep in E; cbn [snd] in E; subst st; unfold C; cbn [sc_rem chacha_score_m snd]; rewrite get_pos_mk by exact Hk; destruct v; reflexivity)).
  specialize (R Hs (fun _ _ _ => Logic.I) ltac:(discriminate) h _ _ _ HW ltac:(discriminate) Hh).
  cbn [sk_mod chacha_seek_m chacha_seek] in R. fold (ctr_mod v) in R.
  unfold run_core, at_start. cbn [bind].
  destruct (run_spec (ks_of_blocks 64 blk) (Some {| l_bs := 64; l_blocks := ctr_mod v |}) false 0 h) as [[rs P']|]; cbn [expect].
  - destruct R as (w' & c' & E & _). rewrite E. reflexivity.
  - rewrite R. reflexivity.
Qed.

(** Whatever backend each call of [process_with_backend] takes, also within one operation of
    the user (cached head and whole blocks, then the tail): the answers are those of any
    fixed backend. *)
Theorem C89_backend_changes o e c h : env_ok e -> cipher_ok c -> Forall (call_ok e) h ->
  cipher_run_m o e c h =
  match run_spec (cipher_ks c) (cipher_lim c) (cipher_strict e c) 0 h with Some (rs, _) => Ok rs | None => Panic end.
Proof.
  intros He Hc Hh. destruct c as [v n key iv | n key iv | | | | | | ]; try (apply (C17_history e); assumption);
    cbn [cipher_run_m cipher_lim cipher_strict cipher_ok] in *; change (2 ^ 32) with M32; change (2 ^ 64) with M64.
  - assert (Hc' : octets 32 key /\ octets (nonce_len v) iv) by (destruct v; exact Hc).
    destruct Hc' as [[Hk Bk] [Hi Bi]]. rewrite new_internal_ok by assumption.
    rewrite (chacha_like_m o e v n key iv (fun i => spec_block v n key i iv)) by
      (try assumption; intros; apply blocks_from_spec; assumption).
    destruct v; reflexivity.
  - destruct Hc as [[Hk Bk] [Hi Bi]]. rewrite xchacha_new_ok by assumption.
    assert (H16 : List.length (firstn 16 iv) = 16%nat) by (rewrite firstn_length, Hi; reflexivity).
    assert (Hx : List.length (xnonce iv) = 12%nat) by (unfold xnonce; rewrite app_length, repeat_length, skipn_length, Hi; reflexivity).
    apply (chacha_like_m o e Ietf n _ _ (fun i => sp_xchacha_block n key i iv)).
    + apply hchacha_length; auto using bytes_firstn.
    + exact Hx.
    + apply hchacha_bytes; assumption.
    + unfold xnonce. apply Forall_app. split; [repeat constructor | apply bytes_skipn; exact Bi].
    + intros. apply xchacha_blocks; assumption.
    + exact Hh.
Qed.
Print Assumptions C89_backend_changes.
Theorem C89_same o1 o2 e c h : env_ok e -> cipher_ok c -> Forall (call_ok e) h ->
  cipher_run_m o1 e c h = cipher_run_m o2 e c h /\ cipher_run_m o1 e c h = cipher_run e c h.
Proof. intros. rewrite !C89_backend_changes, C17_history by assumption. split; reflexivity. Qed.
Print Assumptions C89_same.

(** ** The hypotheses are met *)
(** Two threads race to the first [init]; both then get the right answers. *)
Definition ex_cpu (f : feature) : bool := match f with FAvx512 => false | _ => true end.
Definition ex_threads : threads := fun t => if (t <? 2)%nat then new_acts ++ use_acts else [].
Definition ex_sched : list (nat * (feature -> bool)) :=
  map (fun t => (t, ex_cpu)) [0; 1; 0; 1; 1; 1; 0; 0; 1; 1; 0; 0; 0; 1; 1; 0; 0; 1]%nat.
(** Every call on another backend. *)
Definition ex_choice : choice := fun i =>
  match (i mod 5)%nat with
  | 0%nat => ({| c_target := X86; c_backend := NoCfg; c_avx512 := true |}, {| has_avx512 := true; has_avx2 := true; has_sse2 := true |})
  | 1%nat => ({| c_target := X86; c_backend := NoCfg; c_avx512 := true |}, {| has_avx512 := false; has_avx2 := true; has_sse2 := true |})
  | 2%nat => ({| c_target := X86; c_backend := NoCfg; c_avx512 := false |}, {| has_avx512 := false; has_avx2 := false; has_sse2 := true |})
  | 3%nat => ({| c_target := Aarch64Neon; c_backend := NoCfg; c_avx512 := false |}, {| has_avx512 := false; has_avx2 := false; has_sse2 := false |})
  | _ => ({| c_target := OtherTarget; c_backend := NoCfg; c_avx512 := false |}, {| has_avx512 := false; has_avx2 := false; has_sse2 := false |})
  end.
Definition ex_c : cipher := CChaCha Ietf 4 (repeat 3 32) (repeat 9 12).
Definition ex_h : list op := [Write 5; Write 70; Write 300; Seek 7; Write 1].
Example C89_satisfiable : starts ex_threads
  /\ (exists a b, t_run ex_sched unknown ex_threads = a ++ Answer FAvx2 true :: b /\ In (Token FAvx2) a)
  /\ (exists a b, t_run ex_sched unknown ex_threads = a ++ Answer FAvx512 false :: b /\ In (Token FAvx512) a)
  /\ env_ok ex_env /\ cipher_ok ex_c
  /\ Forall (call_ok ex_env) ex_h
  /\ exists a b c d f, cipher_run_m ex_choice ex_env ex_c ex_h
    = Ok [Bytes a; Bytes b; Bytes c; Done; Bytes d] /\ nth 2 b 0 = f /\ d = [f].
Proof.
  split.
  { intros t f x H. unfold ex_threads in H. destruct (t <? 2)%nat; cbn in H; [|exact H].
    repeat (destruct H as [H|H]; [discriminate H|]). exact H. }
  assert (E : exists l, t_run ex_sched unknown ex_threads = l) by eauto. destruct E as [l E]. rewrite E. vm_compute in E.
  split; [|split].
  - exists (firstn 7 l), (skipn 8 l). subst l. cbn. tauto.
  - exists (firstn 6 l), (skipn 7 l). subst l. cbn. tauto.
  - split; [apply all_ok|]. split; [split; checks|]. split; [repeat constructor|].
    do 5 eexists. rewrite (proj2 (C89_same ex_choice ex_choice ex_env ex_c ex_h (proj1 all_ok) ltac:(split; checks) ltac:(repeat constructor))).
    rewrite eval_run_ok; [split; [vm_compute; reflexivity | split; vm_compute; reflexivity] | apply all_ok | vm_compute; reflexivity | vm_compute; reflexivity].
Qed.
