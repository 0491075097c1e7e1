(** Final theorem C86: the packed buffers.  The model's wrapper and generator buffer keep their
    cursor in a separate field; here the buffers are the ones in memory, with the cursor in the
    first byte or word ([Packed.v]). *)
From Verif Require Import WordLemmas SpecStream SpecChaCha ChaChaCore ChaChaDispatch XChaCha ChaChaSoft ChaChaProofs ChaChaDispatchProofs
  CipherWrapper WrapperProofs SpecSalsa Salsa SalsaProofs SpecRabbit Rabbit RabbitProofs SpecHC256 Hc256 Hc256Proofs Rc4 SpecRC4 Rc4Proofs
  PropCommon Ciphers CiphersProofs BlockRng SpecRng ChaChaRng Packed.
From Verif Require Import PropertiesStream Fast.
From Verif Require Lifecycle LifecycleProofs.
From Coq Require Import ZArith List Lia ZifyBool ZifyNat ZifyN.
Ltac Zify.zify_post_hook ::= Z.div_mod_to_equations.
Local Open Scope N_scope.
Local Open Scope list_scope.

(** The packed form of a wrapper; its block is what [Lifecycle.buffer_mem] says is in memory. *)
Definition pack {S} (w : wrapper S) : packed S := (w_core w, N.of_nat (w_cur w) :: tl (w_buf w)).
Lemma pack_mem {S} (w : wrapper S) : snd (pack w) = Lifecycle.buffer_mem w.
Proof. reflexivity. Qed.

Lemma upd_tl (l : list N) (x : N) : l <> [] -> upd l 0 x = x :: tl l.
Proof. destruct l; [congruence|reflexivity]. Qed.
Lemma slice_tl (l : list N) x i n : (1 <= i)%nat -> l <> [] -> slice (x :: tl l) i n = slice l i n.
Proof. intros H E. destruct l; [congruence|]. destruct i; [lia|]. reflexivity. Qed.

Lemma set_pos_ok (buf : list N) n : buf <> [] -> (n <= 255)%nat -> set_pos buf n = N.of_nat n :: tl buf.
Proof. intros H L. unfold set_pos. rewrite upd_tl by exact H. f_equal. apply N.mod_small. lia. Qed.

Section Wrapper.
  Context {S : Type} (C : score S) (Q : S -> Prop).
  Hypothesis bs_pos : (1 < sc_bs C <= 255)%nat.
  Hypothesis gen_Q : forall k st o st', Q st -> sc_gen C k st = Ok (o, st') -> Q st' /\ length o = (sc_bs C * k)%nat.
  Definition good (w : wrapper S) : Prop := Q (w_core w) /\ length (w_buf w) = sc_bs C /\ (1 <= w_cur w <= sc_bs C)%nat.
  Definition lift {A} (m : Res (A * wrapper S)) : out (A * packed S) :=
    match m with Ok (a, w) => Fine (a, pack w) | Panic => Panics end.

  Lemma get_pos_ok w : good w -> get_pos C (snd (pack w)) = Fine (w_cur w).
  Proof.
    intros (_ & _ & H). unfold get_pos, pack, get. cbn [snd nth]. rewrite Nat2N.id.
    replace ((w_cur w =? 0)%nat || (sc_bs C <? w_cur w)%nat)%bool with false by lia. reflexivity.
  Qed.
  Lemma nonempty (l : list N) : length l = sc_bs C -> l <> [].
  Proof. intros H ->. cbn in H. lia. Qed.

  Lemma new_ok st : Q st -> p_new C st = pack (w_new C st) /\ good (w_new C st).
  Proof.
    intros H. unfold p_new, pack, w_new. cbn [w_core w_buf w_cur]. split.
    - rewrite set_pos_ok; [reflexivity|apply nonempty, repeat_length|lia].
    - split; [exact H|]. cbn [w_buf w_cur]. split; [apply repeat_length|lia].
  Qed.
  Lemma rem_ok w : good w -> p_rem C (pack w) = Fine (buf_rem C w).
  Proof. intros H. unfold p_rem. rewrite get_pos_ok by exact H. reflexivity. Qed.
  Lemma check_ok w n : good w -> p_check C (pack w) n = Fine (check_remaining C w n).
  Proof.
    intros H. unfold p_check, check_remaining. change (fst (pack w)) with (w_core w). destruct (sc_rem C (w_core w)); [|reflexivity].
    rewrite (rem_ok w H). cbn [obind]. destruct (n <=? buf_rem C w)%nat; reflexivity.
  Qed.
  Lemma cached_ok w n : good w -> p_read_cached C (snd (pack w)) n =
    let (head, cur) := read_cached C w n in Fine (head, N.of_nat cur :: tl (w_buf w)).
  Proof.
    intros H. unfold p_read_cached, read_cached. rewrite get_pos_ok by exact H. cbn [obind]. cbv zeta. fold (buf_rem C w).
    destruct H as (_ & L & H). rewrite set_pos_ok; [|discriminate|unfold buf_rem; lia].
    cbn [snd pack tl]. rewrite slice_tl; [reflexivity|lia|apply nonempty, L].
  Qed.
  (** [cur] and the head cursor stay in range; the buffer is the old one with a new cursor. *)
  Lemma write_block_ok st buf cur r : Q st -> length buf = sc_bs C -> (1 <= cur <= sc_bs C)%nat ->
    p_write_block C st (N.of_nat cur :: tl buf) r = lift (write_block C st buf cur r)
    /\ forall o w, write_block C st buf cur r = Ok (o, w) -> good w.
  Proof.
    intros Hq L Hc. unfold p_write_block, write_block. destruct (Nat.eqb_spec r 0) as [->|N0].
    - split; [reflexivity|]. intros o w E. injection E as _ <-. split; [exact Hq|]. split; assumption.
    - destruct (r <? sc_bs C)%nat eqn:Er; cbn [assert_ res obind bind]; [|split; [reflexivity|discriminate]].
      destruct (sc_gen C 1 st) as [[blk st']|] eqn:G; cbn [res obind bind]; [|split; [reflexivity|discriminate]].
      destruct (gen_Q _ _ _ _ Hq G) as [Hq' Lb]. rewrite Nat.mul_1_r in Lb.
      split; [|intros o w E; injection E as _ <-; split; [exact Hq'|]; cbn [w_buf w_cur]; split; [exact Lb|lia]].
      cbn [lift]. unfold pack. cbn [w_core w_buf w_cur]. rewrite set_pos_ok; [reflexivity|apply nonempty, Lb|lia].
  Qed.
  Lemma write_ok w n : good w ->
    p_write C (pack w) n = lift (unchecked_write C w n) /\ forall o w', unchecked_write C w n = Ok (o, w') -> good w'.
  Proof.
    intros H. unfold p_write, unchecked_write. rewrite cached_ok by exact H. destruct (read_cached C w n) as [head cur] eqn:R.
    cbn [obind fst pack]. destruct H as (Hq & L & Hc).
    assert (Hcur : (1 <= cur <= sc_bs C)%nat).
    { unfold read_cached in R. injection R as _ <-. unfold buf_rem. lia. }
    destruct (sc_gen C ((n - length head) / sc_bs C) (w_core w)) as [[body st]|] eqn:G; cbn [res obind bind]; [|split; [reflexivity|discriminate]].
    destruct (gen_Q _ _ _ _ Hq G) as [Hq' _].
    destruct (write_block_ok st (w_buf w) cur ((n - length head) mod sc_bs C) Hq' L Hcur) as [E I]. rewrite E.
    destruct (write_block C st (w_buf w) cur _) as [[tail w']|]; cbn [lift obind bind]; [|split; [reflexivity|discriminate]].
    split; [reflexivity|]. intros o w2 X. injection X as _ <-. apply (I tail w' eq_refl).
  Qed.
  Context (K : option (sseek S)).
  Hypothesis set_Q : match K with None => True | Some k => forall st b, Q st -> b < sk_mod k -> Q (sk_set k st b) end.
  Lemma step_ok w o : good w -> p_step C K (pack w) o = lift (step C K w o) /\ forall r w', step C K w o = Ok (r, w') -> good w'.
  Proof.
    intros H.
    assert (HA : forall d, p_try_apply C (pack w) d = (match try_apply C w d with Ok (Some (b, w')) => Fine (Some (b, pack w')) | Ok None => Fine None | Panic => Panics end)
                 /\ forall b w', try_apply C w d = Ok (Some (b, w')) -> good w').
    { intros d. unfold p_try_apply, try_apply. rewrite check_ok by exact H. cbn [obind].
      destruct (check_remaining C w (length d)); [|split; [reflexivity|discriminate]]. unfold unchecked_apply.
      destruct (write_ok w (length d) H) as [E I]. rewrite E. destruct (unchecked_write C w (length d)) as [[k w1]|]; cbn [lift obind bind]; [|split; [reflexivity|discriminate]].
      split; [reflexivity|]. intros b w' X. injection X as _ <-. apply (I k w1 eq_refl). }
    destruct o as [d | d m | n | q | t]; cbn [p_step step].
    - destruct (HA d) as [E I]. rewrite E. destruct (try_apply C w d) as [[[b w1]|]|]; cbn [obind bind lift]; (split; [reflexivity|]); intros r w' X; try discriminate X; injection X as _ <-; [apply (I b w1 eq_refl)|exact H].
    - unfold apply_b2b. destruct (length d =? m)%nat; [|split; [reflexivity|]; cbn [bind]; intros r w' X; injection X as _ <-; exact H].
      destruct (HA d) as [E I]. rewrite E. destruct (try_apply C w d) as [[[b w1]|]|]; cbn [obind bind lift]; (split; [reflexivity|]); intros r w' X; try discriminate X; injection X as _ <-; [apply (I b w1 eq_refl)|exact H].
    - unfold p_try_write, try_write. rewrite check_ok by exact H. cbn [obind].
      destruct (check_remaining C w n); [|split; [reflexivity|]; cbn [bind]; intros r w' X; injection X as _ <-; exact H].
      destruct (write_ok w n H) as [E I]. rewrite E. destruct (unchecked_write C w n) as [[k w1]|]; cbn [lift obind bind]; [|split; [reflexivity|discriminate]].
      split; [reflexivity|]. intros r w' X. injection X as _ <-. apply (I k w1 eq_refl).
    - destruct K as [k|]; [|split; [reflexivity|]; intros r w' X; injection X as _ <-; exact H].
      unfold p_seek, try_seek. destruct (N.ltb_spec (q / N.of_nat (sc_bs C)) (sk_mod k)) as [Lt|]; [|split; [reflexivity|]; cbn [bind]; intros r w' X; injection X as _ <-; exact H].
      destruct H as (Hq & L & Hc). cbn [fst snd pack]. rewrite set_pos_ok; [|discriminate|lia]. cbn [tl].
      destruct (write_block_ok (sk_set k (w_core w) (q / N.of_nat (sc_bs C))) (w_buf w) (sc_bs C) (N.to_nat (q mod N.of_nat (sc_bs C))) (set_Q _ _ Hq Lt) L ltac:(lia)) as [E I].
      rewrite E. destruct (write_block C _ (w_buf w) (sc_bs C) _) as [[x w1]|]; cbn [lift obind bind]; [|split; [reflexivity|discriminate]].
      split; [reflexivity|]. intros r w' X. injection X as _ <-. apply (I x w1 eq_refl).
    - destruct K as [k|]; [|split; [reflexivity|]; intros r w' X; injection X as _ <-; exact H].
      unfold p_current, try_current_pos. rewrite (rem_ok w H). cbn [obind]. cbv zeta. change (fst (pack w)) with (w_core w).
      match goal with |- context [if ?b then _ else _] => destruct b end; (split; [reflexivity|]; intros r w' X; injection X as _ <-; exact H).
  Qed.
  Lemma run_ok h : forall w, good w -> p_run C K (pack w) h = lift (run C K w h).
  Proof.
    induction h as [|o h IH]; intros w H; [reflexivity|]. cbn [p_run run].
    destruct (step_ok w o H) as [E I]. rewrite E. destruct (step C K w o) as [[r w1]|]; cbn [lift obind bind]; [|reflexivity].
    rewrite (IH w1 (I r w1 eq_refl)). destruct (run C K w1 h) as [[rs w2]|]; reflexivity.
  Qed.
  Lemma core_ok m h : (forall st, m = Ok st -> Q st) ->
    p_core C K m h = match (do st <- m; run C K (w_new C st) h) with Ok (rs, w) => Fine (rs, Lifecycle.buffer_mem w) | Panic => Panics end.
  Proof.
    intros Hm. unfold p_core. destruct m as [st|]; cbn [res obind bind]; [|reflexivity].
    destruct (new_ok st (Hm st eq_refl)) as [E G]. rewrite E, run_ok by exact G.
    destruct (run C K (w_new C st) h) as [[rs w]|]; reflexivity.
  Qed.
End Wrapper.

(** Nothing is wiped: the memory a dropped cipher leaves is all of it. *)
Definition no_features : Lifecycle.features := {| Lifecycle.own := false; Lifecycle.ext := false |}.
Definition agrees (e : env) (c : cipher) (h : list op) : Prop :=
  match cipher_run_packed e c h with
  | Fine (rs, block) => cipher_run e c h = Ok rs /\ exists core, Lifecycle.after_drop e no_features c h = Ok (core ++ block)
  | Panics => cipher_run e c h = Panic
  | Undef => False
  end.
Lemma finish {S} (C : score S) K m h (mem : S -> list N) :
  match (match (do st <- m; run C K (w_new C st) h) with Ok (rs, w) => Fine (rs, Lifecycle.buffer_mem w) | Panic => Panics end) with
  | Fine (rs, block) => run_core C K m h = Ok rs /\ exists core, Lifecycle.after_core C K m h (Lifecycle.dropped mem (fun s => s) false) = Ok (core ++ block)
  | Panics => run_core C K m h = Panic
  | Undef => False
  end.
Proof.
  unfold run_core, Lifecycle.after_core. destruct m as [st|]; cbn [bind]; [|reflexivity].
  destruct (run C K (w_new C st) h) as [[rs w]|]; cbn [bind]; [|reflexivity]. split; [reflexivity|].
  exists (mem (w_core w)). reflexivity.
Qed.

(** The packed wrapper of every cipher type gives the answers of the model, leaves in memory the
    block [Lifecycle] says, and never meets the undefined case. *)
Theorem C86_cipher e c h : env_ok e -> cipher_ok c -> agrees e c h.
Proof.
  intros He Hc. unfold agrees. destruct c as [v n key iv | n key iv | n key iv | n key iv | key iv | key | key iv | key]; cbn [cipher_ok cipher_run_packed] in *.
  - rewrite (core_ok _ wf16).
    + apply finish.
    + cbn; lia.
    + apply LifecycleProofs.chacha_gen_Q.
    + intros st b. apply LifecycleProofs.set_block_pos_wf.
    + intros st Est. assert (X : octets 32 key /\ octets (nonce_len v) iv) by (destruct v; exact Hc). destruct X as [[? ?] [? ?]].
      rewrite new_internal_ok in Est by assumption. injection Est as <-. apply mk_state_wf; assumption.
  - rewrite (core_ok _ wf16).
    + apply finish.
    + cbn; lia.
    + apply LifecycleProofs.chacha_gen_Q.
    + intros st b. apply LifecycleProofs.set_block_pos_wf.
    + intros st Est. destruct Hc as [[Hk Bk] [Hi Bi]]. rewrite xchacha_new_ok in Est by assumption. assert (X : st = mk_state Ietf (hchacha n key (firstn 16 iv)) (xnonce iv) 0) by congruence. rewrite X. clear X Est.
      assert (H16 : List.length (firstn 16 iv) = 16%nat) by (rewrite firstn_length, Hi; reflexivity).
      apply mk_state_wf.
      * apply hchacha_length; try assumption. apply bytes_firstn; exact Bi.
      * unfold xnonce. rewrite app_length, repeat_length, skipn_length, Hi. reflexivity.
      * apply hchacha_bytes; assumption.
      * unfold xnonce. apply Forall_app. split; [repeat constructor | apply bytes_skipn; exact Bi].
  - rewrite (core_ok _ wf16).
    + apply finish.
    + cbn; lia.
    + apply LifecycleProofs.salsa_gen_Q.
    + intros st b H _. apply LifecycleProofs.salsa_set_wf, H.
    + intros st Est. destruct Hc as [[Hk Bk] [Hi Bi]]. injection Est as <-. rewrite salsa_new_eq by assumption. apply s_state_wf; assumption.
  - rewrite (core_ok _ wf16).
    + apply finish.
    + cbn; lia.
    + apply LifecycleProofs.salsa_gen_Q.
    + intros st b H _. apply LifecycleProofs.salsa_set_wf, H.
    + intros st Est. destruct Hc as [[Hk Bk] [Hi Bi]]. injection Est as <-. rewrite xsalsa_new_eq by assumption.
      assert (H16 : List.length (firstn 16 iv) = 16%nat) by (rewrite firstn_length, Hi; reflexivity).
      assert (H8 : List.length (skipn 16 iv) = 8%nat) by (rewrite skipn_length, Hi; reflexivity).
      apply s_state_wf; [apply hsalsa_length | | apply hsalsa_bytes | apply bytes_skipn]; assumption.
  - rewrite (core_ok _ rwf).
    + apply finish.
    + cbn; lia.
    + apply LifecycleProofs.rabbit_gen_Q.
    + exact I.
    + intros st Est. destruct Hc as [[Hk Bk] [Hi Bi]]. destruct (setup_key_ok (e_ck e) key Hk Bk) as (s0 & E0 & Hwf0 & _).
      destruct (setup_iv_ok (e_ck e) iv s0 Hi Bi Hwf0) as (s & E' & Hwf & _).
      unfold rabbit_new, rabbit_key_only in Est. rewrite E0 in Est. cbn [bind] in Est. rewrite E' in Est. injection Est as <-. exact Hwf.
  - rewrite (core_ok _ rwf).
    + apply finish.
    + cbn; lia.
    + apply LifecycleProofs.rabbit_gen_Q.
    + exact I.
    + intros st Est. destruct Hc as [Hk Bk]. destruct (setup_key_ok (e_ck e) key Hk Bk) as (s0 & E0 & Hwf0 & _).
      unfold rabbit_key_only in Est. rewrite E0 in Est. injection Est as <-. exact Hwf0.
  - rewrite (core_ok _ LifecycleProofs.hwf).
    + apply finish.
    + cbn; lia.
    + intros k st o st'. apply LifecycleProofs.hc_gen_Q, He.
    + exact I.
    + intros st Est. destruct Hc as [[Hk Bk] [Hi Bi]].
      assert (Hu : usize_ok (2 ^ e_usz e)).
      { unfold usize_ok. destruct He as [-> | [-> | ->]]; [left | right; left | right; right]; reflexivity. }
      destruct (hc_new_ok key iv Hk Bk Hi Bi (e_ck e) _ Hu) as (s & E' & H). rewrite E' in Est. injection Est as <-.
      exists (hc_init key iv), 0%nat. exact H.
  - destruct (cipher_run e (CRc4 key) h) as [rs|] eqn:R; cbn [res obind]; [|reflexivity]. split; [reflexivity|].
    cbn [Lifecycle.after_drop]. cbv zeta. cbn [cipher_run] in R. destruct (new_from_slice key) as [[s|]|]; cbn [bind] in *; try discriminate R.
    destruct (rc4_run s h) as [[rs' s']|]; cbn [bind] in *; [|discriminate R]. eexists. rewrite app_nil_r. reflexivity.
Qed.
Print Assumptions C86_cipher.

(** ** The generators *)
Definition packb (r : rng) : pbrng := (b_core r, Lifecycle.results_mem r).
Definition rgood (r : rng) : Prop := LifecycleProofs.rshape r /\ (1 <= b_idx r <= 64)%nat.
Lemma set_index_ok (l : list N) i : length l = 64%nat -> (i <= 64)%nat -> p_set_index l i = N.of_nat i :: tl l.
Proof. intros H L. unfold p_set_index. rewrite upd_tl by (intros ->; discriminate H). f_equal. apply N.mod_small. lia. Qed.
Lemma index_packb r : p_index (packb r) = b_idx r.
Proof. unfold p_index, packb, Lifecycle.results_mem, get. cbn [snd nth]. apply Nat2N.id. Qed.
Lemma get_tl (l : list N) x i : (1 <= i)%nat -> l <> [] -> get (x :: tl l) i = get l i.
Proof. intros H E. destruct l; [congruence|]. destruct i; [lia|]. reflexivity. Qed.
Lemma skipn_tl (l l' : list N) i : (1 <= i)%nat -> l <> [] -> l' <> [] -> tl l = tl l' -> skipn i l = skipn i l'.
Proof. intros H E E' T. destruct l, l'; try congruence. destruct i; [lia|]. cbn in *. rewrite T. reflexivity. Qed.
Lemma mem_length (r : rng) : length (b_res r) = 64%nat -> length (Lifecycle.results_mem r) = 64%nat.
Proof. intros H. unfold Lifecycle.results_mem. destruct (b_res r); [discriminate H | exact H]. Qed.
Lemma set_mem (r : rng) i : LifecycleProofs.rshape r -> (i <= 64)%nat ->
  p_set_index (Lifecycle.results_mem r) i = N.of_nat i :: tl (b_res r).
Proof.
  intros [_ H] L. unfold Lifecycle.results_mem. rewrite set_index_ok by (exact L || apply (mem_length r H)). reflexivity.
Qed.
Lemma ne64 (l : list N) : length l = 64%nat -> l <> [].
Proof. intros H ->. discriminate H. Qed.

Section Rng.
  Context (c : config) (p : cpu) (n : nat).
  Notation G := (rng_gen c p n).
  Definition both {A} (m : A * rng) : A * pbrng := (fst m, packb (snd m)).
  Definition bothr {A} (m : Res (A * rng)) : Res (A * pbrng) := match m with Ok m => Ok (both m) | Panic => Panic end.
  Definition lone (m : Res rng) : Res pbrng := match m with Ok r => Ok (packb r) | Panic => Panic end.

  Lemma new_packed core : pb_new core = packb (b_new core).
  Proof. unfold pb_new. rewrite set_index_ok by (reflexivity || lia). reflexivity. Qed.
  Lemma offset_packed r : p_word_offset (packb r) = word_offset r.
  Proof. unfold p_word_offset, word_offset. rewrite index_packb. reflexivity. Qed.
  Lemma skip_packed r k : LifecycleProofs.rshape r -> p_reset_and_skip G (packb r) k = lone (reset_and_skip G r k).
  Proof.
    intros H. unfold p_reset_and_skip, reset_and_skip. destruct (k =? 0)%nat.
    - cbn [lone fst snd packb]. rewrite set_mem by (exact H || (unfold BUFFER_SIZE; lia)). reflexivity.
    - unfold assert_. destruct (Nat.ltb_spec k BUFFER_SIZE) as [L|]; cbn [bind]; [|reflexivity].
      pose proof (LifecycleProofs.gen_shape c p n _ (proj1 H)) as [_ X]. cbn [fst packb]. destruct (G (b_core r)) as [res core]. cbn [fst] in X.
      unfold BUFFER_SIZE in L. rewrite set_index_ok by (exact X || lia). reflexivity.
  Qed.
  Lemma word_packed r : rgood r -> p_next_word G (packb r) = both (next_word G r) /\ rgood (snd (next_word G r)).
  Proof.
    intros [H Hi]. pose proof (LifecycleProofs.next_word_shape c p n r H) as Hs.
    unfold p_next_word, next_word, refill, both, rgood in *. rewrite index_packb. cbn [fst snd packb] in *.
    pose proof (LifecycleProofs.gen_shape c p n _ (proj1 H)) as [_ X].
    destruct (Nat.leb_spec BUFFER_SIZE (b_idx r)) as [L|L]; unfold BUFFER_SIZE in L.
    - destruct (G (b_core r)) as [res core]. cbn [fst snd b_idx b_core b_res] in *. split; [|split; [exact Hs | lia]].
      rewrite set_index_ok by (exact X || lia). reflexivity.
    - cbn [b_idx b_core b_res] in *. split; [|split; [exact Hs | lia]]. rewrite set_mem by (exact H || lia).
      unfold Lifecycle.results_mem. rewrite get_tl by (lia || apply ne64, H). reflexivity.
  Qed.
  Lemma u64_packed r : rgood r -> p_next_u64 G (packb r) = both (next_u64 G r) /\ rgood (snd (next_u64 G r)).
  Proof.
    intros [H Hi]. pose proof (LifecycleProofs.next_u64_shape c p n r H) as Hs.
    unfold p_next_u64, next_u64, both, rgood in *. cbv zeta in *. rewrite index_packb. cbn [fst snd packb] in *.
    pose proof (LifecycleProofs.gen_shape c p n _ (proj1 H)) as [_ X]. unfold BUFFER_SIZE in *.
    destruct (Nat.ltb_spec (b_idx r) (64 - 1)) as [L|L].
    - cbn [fst snd b_idx b_core b_res] in *. split; [|split; [exact Hs | lia]]. rewrite set_mem by (exact H || lia).
      unfold Lifecycle.results_mem. rewrite !get_tl by (lia || apply ne64, H). reflexivity.
    - destruct (Nat.leb_spec 64 (b_idx r)) as [L'|L']; destruct (G (b_core r)) as [res core]; cbn [fst snd b_idx b_core b_res] in *;
        (split; [|split; [exact Hs | lia]]); rewrite set_index_ok by (exact X || lia).
      + reflexivity.
      + unfold Lifecycle.results_mem. rewrite get_tl by (lia || apply ne64, H). reflexivity.
  Qed.
  Lemma fill_packed fuel : forall r results len, rgood r -> length results = 64%nat -> tl results = tl (b_res r) ->
    p_fill_loop G fuel (b_core r) results (b_idx r) len = both (fill_loop G fuel r len) /\ rgood (snd (fill_loop G fuel r len)).
  Proof.
    induction fuel as [|fuel IH]; intros r results len Hg Hl Ht.
    - cbn [p_fill_loop fill_loop]. split; [|exact Hg]. rewrite set_index_ok by (exact Hl || apply Hg). rewrite Ht. reflexivity.
    - cbn [p_fill_loop fill_loop]. destruct (Nat.eqb_spec len 0) as [|Hlen].
      + split; [|exact Hg]. rewrite set_index_ok by (exact Hl || apply Hg). rewrite Ht. reflexivity.
      + pose proof Hg as [H Hi]. pose proof (LifecycleProofs.refill_shape c p n r H) as Hs. cbv zeta. unfold refill in *.
        pose proof (LifecycleProofs.gen_shape c p n _ (proj1 H)) as [_ X]. unfold BUFFER_SIZE in *.
        destruct (Nat.leb_spec 64 (b_idx r)) as [L|L].
        * destruct (G (b_core r)) as [res core]. cbn [fst b_idx b_core b_res] in *. cbn [skipn].
          set (filled := Nat.min (4 * length res) len). assert (Hf : (1 <= filled <= 256)%nat) by lia.
          destruct (IH {| b_core := core; b_res := res; b_idx := (0 + (filled + 3) / 4)%nat |} res (len - filled)%nat) as [E Hr].
          { split; [exact Hs|]. cbn [b_idx]. lia. } { exact X. } { reflexivity. }
          cbn [b_core b_idx] in E. rewrite E. unfold both in *.
          destruct (fill_loop G fuel _ _) as [rest r2]. cbn [fst snd] in *. split; [reflexivity | exact Hr].
        * rewrite (skipn_tl results (b_res r)) by (lia || exact Ht || apply ne64; apply H || exact Hl).
          set (words := skipn (b_idx r) (b_res r)). assert (Hw : length words = (64 - b_idx r)%nat) by (unfold words; rewrite skipn_length, (proj2 H); reflexivity).
          set (filled := Nat.min (4 * length words) len). assert (Hf : (1 <= filled <= 4 * (64 - b_idx r))%nat) by lia.
          destruct (IH {| b_core := b_core r; b_res := b_res r; b_idx := (b_idx r + (filled + 3) / 4)%nat |} results (len - filled)%nat) as [E Hr].
          { split; [exact H|]. cbn [b_idx]. lia. } { exact Hl. } { exact Ht. }
          cbn [b_core b_idx] in E. rewrite E. unfold both in *.
          destruct (fill_loop G fuel _ _) as [rest r2]. cbn [fst snd] in *. split; [reflexivity | exact Hr].
  Qed.
  Lemma reset_good r k r' : rgood r -> reset_and_skip G r k = Ok r' -> rgood r'.
  Proof.
    intros [H _] E. split; [exact (LifecycleProofs.skip_shape c p n _ _ _ H E)|]. unfold reset_and_skip in E. unfold BUFFER_SIZE in *.
    destruct (Nat.eqb_spec k 0); [injection E as <-; cbn [b_idx]; lia|]. unfold assert_ in E. destruct (Nat.ltb_spec k 64); [|discriminate E].
    cbn [bind] in E. destruct (G (b_core r)). injection E as <-. cbn [b_idx]. lia.
  Qed.
  Lemma set_block_packed r b : LifecycleProofs.rshape r -> p_rng_set_block_pos G (packb r) b = lone (rng_set_block_pos G r b).
  Proof.
    intros H. unfold p_rng_set_block_pos, rng_set_block_pos. rewrite skip_packed by exact H.
    destruct (reset_and_skip G r 0) as [r1|]; reflexivity.
  Qed.
  Lemma set_block_good r b r' : rgood r -> rng_set_block_pos G r b = Ok r' -> rgood r'.
  Proof.
    intros H E. split; [exact (LifecycleProofs.set_block_shape c p n _ _ _ (proj1 H) E)|]. unfold rng_set_block_pos in E.
    destruct (reset_and_skip G r 0) as [r1|] eqn:E1; [|discriminate E]. apply reset_good in E1; [|exact H]. injection E as <-. apply E1.
  Qed.
  Lemma view_core r : b_core (p_view (packb r)) = b_core r /\ word_offset (p_view (packb r)) = word_offset r.
  Proof. split; [reflexivity|]. exact (offset_packed r). Qed.

  Lemma rstep_packed ck r o : rgood r ->
    p_rng_step G ck (packb r) o = bothr (rng_step G ck r o) /\ (forall x r', rng_step G ck r o = Ok (x, r') -> rgood r').
  Proof.
    intros H. destruct (view_core r) as [Vc Vo].
    assert (Vp : get_word_pos (p_view (packb r)) = get_word_pos r) by (unfold get_word_pos; rewrite Vc, Vo; reflexivity).
    assert (Vs : get_stream (p_view (packb r)) = get_stream r) by reflexivity.
    assert (Vd : get_seed (p_view (packb r)) = get_seed r) by reflexivity.
    destruct o as [| |k| |q| |b| |s| |]; cbn [p_rng_step rng_step].
    - destruct (word_packed r H) as [E Hg]. rewrite E. unfold both. destruct (next_word G r) as [y r1]. cbn [fst snd] in *.
      split; [reflexivity | intros x r' [= <- <-]; exact Hg].
    - destruct (u64_packed r H) as [E Hg]. rewrite E. unfold both. destruct (next_u64 G r) as [y r1]. cbn [fst snd] in *.
      split; [reflexivity | intros x r' [= <- <-]; exact Hg].
    - unfold p_fill_bytes, fill_bytes. rewrite index_packb. cbn [fst snd packb].
      destruct (fill_packed k r (Lifecycle.results_mem r) k H) as [E Hg].
      { apply mem_length, H. } { reflexivity. }
      rewrite E. unfold both. destruct (fill_loop G k r k) as [y r1]. cbn [fst snd] in *.
      split; [reflexivity | intros x r' [= <- <-]; exact Hg].
    - rewrite Vp. split; [reflexivity | intros x r' [= <- <-]; exact H].
    - unfold p_rng_set_word_pos, rng_set_word_pos. cbv zeta. cbn [fst snd packb].
      set (r0 := {| b_core := upd _ _ _; b_res := b_res r; b_idx := b_idx r |}).
      assert (H0 : rgood r0) by (destruct H as [[H1 H2] H3]; split; [split; [apply LifecycleProofs.upd_wf, LifecycleProofs.upd_wf, H1 | exact H2] | exact H3]).
      change (upd (upd (b_core r) 12 _) 13 _, Lifecycle.results_mem r) with (packb r0). rewrite skip_packed by apply H0.
      destruct (reset_and_skip G r0 _) as [r1|] eqn:E1; cbn [lone bind]; (split; [reflexivity|]); intros x r' E; [|discriminate E].
      injection E as <- <-. exact (reset_good _ _ _ H0 E1).
    - unfold rng_get_block_pos. rewrite Vc, Vo. cbv zeta.
      match goal with |- context [do x <- ?m; Ok (Num x, r)] => destruct m as [b|] end; cbn [bind]; (split; [reflexivity|]); intros x r' E; [|discriminate E].
      injection E as <- <-. exact H.
    - rewrite set_block_packed by apply H. destruct (rng_set_block_pos G r b) as [r1|] eqn:E1; cbn [lone bind]; (split; [reflexivity|]); intros x r' E; [|discriminate E].
      injection E as <- <-. exact (set_block_good _ _ _ H E1).
    - rewrite Vs. split; [reflexivity | intros x r' [= <- <-]; exact H].
    - unfold p_set_stream, set_stream. cbv zeta. cbn [fst snd packb].
      set (r0 := {| b_core := upd _ _ _; b_res := b_res r; b_idx := b_idx r |}).
      assert (H0 : rgood r0) by (destruct H as [[H1 H2] H3]; split; [split; [apply LifecycleProofs.upd_wf, LifecycleProofs.upd_wf, H1 | exact H2] | exact H3]).
      change (upd (upd (b_core r) 14 _) 15 _, Lifecycle.results_mem r) with (packb r0). rewrite set_block_packed by apply H0.
      destruct (rng_set_block_pos G r0 0) as [r1|] eqn:E1; cbn [lone bind]; (split; [reflexivity|]); intros x r' E; [|discriminate E].
      injection E as <- <-. exact (set_block_good _ _ _ H0 E1).
    - rewrite Vd. split; [reflexivity | intros x r' [= <- <-]; exact H].
    - unfold serialize_state. rewrite Vp, Vs, Vd. cbv zeta.
      match goal with |- context [do l <- ?m; Ok (Buf l, r)] => destruct m as [b|] end; cbn [bind]; (split; [reflexivity|]); intros x r' E; [|discriminate E].
      injection E as <- <-. exact H.
  Qed.
  Lemma rrun_packed ck h : forall r, rgood r -> p_rng_run G ck (packb r) h = bothr (rng_run G ck r h).
  Proof.
    induction h as [|o h IH]; intros r H; cbn [p_rng_run rng_run]; [reflexivity|]. destruct (rstep_packed ck r o H) as [E Hg]. rewrite E.
    destruct (rng_step G ck r o) as [[x r1]|]; cbn [bothr bind both fst snd]; [|reflexivity]. specialize (Hg _ _ eq_refl). rewrite IH by exact Hg.
    destruct (rng_run G ck r1 h) as [[xs r2]|]; reflexivity.
  Qed.
End Rng.

(** The packed generator gives the answers (and the panics) of the model, and leaves in memory
    the core and the results [Lifecycle] says. *)
Theorem C86_rng n c p ck seed h : octets 32 seed ->
  rng_run_packed (rng_gen c p n) ck seed h
  = match (do r <- rng_from_seed seed; rng_run (rng_gen c p n) ck r h) with
    | Ok (xs, r) => Ok (xs, (b_core r, Lifecycle.results_mem r))
    | Panic => Panic
    end.
Proof.
  intros [Hk Bk]. unfold rng_run_packed, rng_from_seed. rewrite new_internal_ok by (exact Hk || reflexivity). cbn [bind]. rewrite new_packed.
  rewrite rrun_packed.
  - destruct (rng_run _ ck _ h) as [[xs r]|]; reflexivity.
  - split; [|cbn [b_new b_idx]; unfold BUFFER_SIZE; lia]. apply LifecycleProofs.b_new_shape, mk_state_wf; try assumption; [reflexivity|].
    repeat constructor.
Qed.
Print Assumptions C86_rng.
(** The same for a generator restored from its serialized state. *)
Theorem C86_rng_restored n c p ck a h : octets 49 a ->
  (do b <- p_deserialize_state (rng_gen c p n) a; p_rng_run (rng_gen c p n) ck b h)
  = match (do r <- deserialize_state (rng_gen c p n) a; rng_run (rng_gen c p n) ck r h) with
    | Ok (xs, r) => Ok (xs, (b_core r, Lifecycle.results_mem r))
    | Panic => Panic
    end.
Proof.
  intros [Hl Hb]. unfold p_deserialize_state, deserialize_state. cbv zeta.
  assert (L1 : length (firstn 32 a) = 32%nat) by (rewrite firstn_length, Hl; reflexivity).
  assert (L2 : length (firstn 8 (skipn 32 a)) = 8%nat) by (rewrite firstn_length, skipn_length, Hl; reflexivity).
  assert (L3 : length (skipn 40 a) = 9%nat) by (rewrite skipn_length, Hl; reflexivity).
  rewrite L1, L2, L3. cbn [assert_ Nat.eqb andb bind].
  rewrite new_internal_ok by assumption. cbn [bind]. rewrite new_packed.
  set (core := mk_state Legacy _ _ 0).
  assert (Hg : rgood (b_new core)).
  { split; [|cbn [b_new b_idx]; unfold BUFFER_SIZE; lia]. apply LifecycleProofs.b_new_shape, mk_state_wf; try assumption.
    - apply bytes_firstn, Hb.
    - apply bytes_firstn, bytes_skipn, Hb. }
  set (q := from_le _). pose proof (rstep_packed c p n ck (b_new core) (SetWordPos q) Hg) as [E Hr]. cbn [p_rng_step rng_step] in E, Hr.
  destruct (p_rng_set_word_pos _ (packb (b_new core)) q) as [b1|], (rng_set_word_pos _ (b_new core) q) as [r1|]; cbn [bind] in E, Hr |- *; try discriminate E; [|reflexivity].
  cbn [bothr both fst snd] in E. injection E as ->. rewrite rrun_packed by exact (Hr _ _ eq_refl).
  destruct (rng_run _ ck _ h) as [[xs r]|]; reflexivity.
Qed.
Print Assumptions C86_rng_restored.

(** The bound on the block size is needed: with blocks of 256 bytes the cursor of a fresh wrapper
    would be written as 0, and the first request would be undefined behaviour. *)
Theorem C86_limit {S} (C : score S) st n : sc_bs C = 256%nat -> sc_rem C st = None -> p_step C None (p_new C st) (Write n) = Undef.
Proof.
  intros Hb Hr. cbn [p_step]. unfold p_try_write, p_check, p_new. cbn [fst snd]. rewrite Hr. cbn [obind].
  unfold p_write, p_read_cached. cbn [snd]. unfold get_pos, set_pos. rewrite Hb. reflexivity.
Qed.
Print Assumptions C86_limit.

(** Instances: ChaCha20 across a block boundary and a seek (cursor 3, then the block's own bytes);
    Rabbit with its 16-byte block; a generator left after 5 bytes of output (index 2). *)
Example C86_satisfiable :
  let e := ex_env in let c := CChaCha Ietf 10 (repeat 1 32) (repeat 2 12) in let h := [Write 60; Apply (repeat 0 10); Seek 131; CurPos (2 ^ 64)] in
  env_ok e /\ cipher_ok c
  /\ match cipher_run_packed e c h with Fine (rs, b) => length rs = 4%nat /\ nth 3 rs Err = Pos 131 /\ hd 0 b = 3 /\ length b = 64%nat | _ => False end
  /\ match cipher_run_packed e (CRabbit (repeat 1 16) (repeat 2 8)) [Write 20] with Fine (_, b) => hd 0 b = 4 /\ length b = 16%nat | _ => False end
  /\ match rng_run_packed (rng_gen (e_cfg e) (e_cpu e) 10) true (repeat 7 32) [Fill 5; GetWordPos; NextU32] with
     | Ok (xs, (_, m)) => nth 1 xs Unit = Num 2 /\ hd 0 m = 3 /\ length m = 64%nat
     | _ => False
     end
  /\ get_pos (chacha_score e Ietf 10) (repeat 0 64) = Undef.
Proof. cbv zeta. split; [apply all_ok|]. split; [split; checks|]. vm_compute. repeat split. Qed.
