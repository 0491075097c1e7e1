(** C48 (wiping on drop), C49 (Debug). *)
Require Import String.
From Verif Require Import WordLemmas SpecStream SpecChaCha ChaChaCore ChaChaDispatch XChaCha ChaChaSoft ChaChaProofs ChaChaDispatchProofs
  CipherWrapper WrapperProofs SpecSalsa Salsa SalsaProofs SpecRabbit Rabbit RabbitProofs SpecHC256 Hc256 Hc256Proofs Rc4 SpecRC4 Rc4Proofs
  PropCommon Ciphers CiphersProofs BlockRng ChaChaRng SpecRng RngProofs PropertiesRng Lifecycle LifecycleProofs.
From Coq Require Import Lia.
From Coq Require DecimalString.
Local Open Scope N_scope.

(** ** C48 *)
(** Number of memory cells of a value of the type of [c]. *)
Definition size (c : cipher) : nat :=
  match c with
  | CChaCha _ _ _ _ | CXChaCha _ _ _ | CSalsa _ _ _ | CXSalsa _ _ _ => 16 + 64
  | CRabbit _ _ | CRabbitKeyOnly _ => 17 + 16
  | CHc256 _ _ => 2049 + 4
  | CRc4 _ => 258
  end.

Lemma after_drop_zero e f c h mem : env_ok e -> cipher_ok c -> own f = true -> cipher_zeroize (crate_of c) f = true ->
  after_drop e f c h = Ok mem -> mem = repeat 0 (size c).
Proof.
  intros He Hc Hf Hz E. unfold after_drop in E. cbv zeta in E. rewrite Hz in E.
  destruct c as [v n key iv | n key iv | n key iv | n key iv | key iv | key | key iv | key]; cbn [cipher_ok size] in *.
  - apply (shape_after _ wf16) in E.
    + destruct E as (w & Hw & ->). apply (dropped_zero (chacha_score e v n) wf16); [cbn; lia | | exact Hw].
      intros st. apply chacha_drop_zero; exact Hf.
    + cbn; lia.
    + apply chacha_gen_Q.
    + intros st b. apply set_block_pos_wf.
    + intros st Est. assert (X : octets 32 key /\ octets (nonce_len v) iv) by (destruct v; exact Hc). destruct X as [[? ?] [? ?]].
      rewrite new_internal_ok in Est by assumption. injection Est as <-. apply mk_state_wf; assumption.
  - apply (shape_after _ wf16) in E.
    + destruct E as (w & Hw & ->). apply (dropped_zero (chacha_score e Ietf n) wf16); [cbn; lia | | exact Hw].
      intros st. apply chacha_drop_zero; exact Hf.
    + cbn; lia.
    + apply chacha_gen_Q.
    + intros st b. apply set_block_pos_wf.
    + intros st Est. destruct Hc as [[Hk Bk] [Hi Bi]]. rewrite xchacha_new_ok in Est by assumption. assert (X : st = mk_state Ietf (hchacha n key (firstn 16 iv)) (xnonce iv) 0) by congruence. rewrite X. clear X Est.
      assert (H16 : List.length (firstn 16 iv) = 16%nat) by (rewrite firstn_length, Hi; reflexivity).
      apply mk_state_wf.
      * apply hchacha_length; try assumption. apply bytes_firstn; exact Bi.
      * unfold xnonce. rewrite app_length, repeat_length, skipn_length, Hi. reflexivity.
      * apply hchacha_bytes; assumption.
      * unfold xnonce. apply Forall_app. split; [repeat constructor | apply bytes_skipn; exact Bi].
  - apply (shape_after _ wf16) in E.
    + destruct E as (w & Hw & ->). apply (dropped_zero (salsa_score e n) wf16); [cbn; lia | | exact Hw].
      intros st. apply salsa_drop_zero; exact Hf.
    + cbn; lia.
    + apply salsa_gen_Q.
    + intros st b H _. apply salsa_set_wf, H.
    + intros st Est. destruct Hc as [[Hk Bk] [Hi Bi]]. injection Est as <-. rewrite salsa_new_eq by assumption. apply s_state_wf; assumption.
  - apply (shape_after _ wf16) in E.
    + destruct E as (w & Hw & ->). apply (dropped_zero (salsa_score e n) wf16); [cbn; lia | | exact Hw].
      intros st. apply salsa_drop_zero; exact Hf.
    + cbn; lia.
    + apply salsa_gen_Q.
    + intros st b H _. apply salsa_set_wf, H.
    + intros st Est. destruct Hc as [[Hk Bk] [Hi Bi]]. injection Est as <-. rewrite xsalsa_new_eq by assumption.
      assert (H16 : List.length (firstn 16 iv) = 16%nat) by (rewrite firstn_length, Hi; reflexivity).
      assert (H8 : List.length (skipn 16 iv) = 8%nat) by (rewrite skipn_length, Hi; reflexivity).
      apply s_state_wf; [apply hsalsa_length | | apply hsalsa_bytes | apply bytes_skipn]; assumption.
  - apply (shape_after _ rwf) in E.
    + destruct E as (w & Hw & ->). apply (dropped_zero (rabbit_score e) rwf); [cbn; lia | | exact Hw].
      intros st. apply rabbit_drop_zero; exact Hf.
    + cbn; lia.
    + apply rabbit_gen_Q.
    + exact I.
    + intros st Est. destruct Hc as [[Hk Bk] [Hi Bi]]. destruct (setup_key_ok (e_ck e) key Hk Bk) as (s0 & E0 & Hwf0 & _).
      destruct (setup_iv_ok (e_ck e) iv s0 Hi Bi Hwf0) as (s & E' & Hwf & _).
      unfold rabbit_new, rabbit_key_only in Est. rewrite E0 in Est. cbn [bind] in Est. rewrite E' in Est. injection Est as <-. exact Hwf.
  - apply (shape_after _ rwf) in E.
    + destruct E as (w & Hw & ->). apply (dropped_zero (rabbit_score e) rwf); [cbn; lia | | exact Hw].
      intros st. apply rabbit_drop_zero; exact Hf.
    + cbn; lia.
    + apply rabbit_gen_Q.
    + exact I.
    + intros st Est. destruct Hc as [Hk Bk]. destruct (setup_key_ok (e_ck e) key Hk Bk) as (s0 & E0 & Hwf0 & _).
      unfold rabbit_key_only in Est. rewrite E0 in Est. injection Est as <-. exact Hwf0.
  - apply (shape_after _ hwf) in E.
    + destruct E as (w & Hw & ->). apply (dropped_zero (hc_score e) hwf); [cbn; lia | | exact Hw].
      intros st. apply hc_drop_zero; exact Hf.
    + cbn; lia.
    + intros k st o st'. apply hc_gen_Q, He.
    + exact I.
    + intros st Est. destruct Hc as [[Hk Bk] [Hi Bi]].
      assert (Hu : usize_ok (2 ^ e_usz e)).
      { unfold usize_ok. destruct He as [-> | [-> | ->]]; [left | right; left | right; right]; reflexivity. }
      destruct (hc_new_ok key iv Hk Bk Hi Bi (e_ck e) _ Hu) as (s & E' & H). rewrite E' in Est. injection Est as <-.
      exists (hc_init key iv), 0%nat. exact H.
  - destruct Hc as [Hk Bk]. destruct (new_ok key Hk) as (s & E' & Hwf & _). rewrite E' in E. cbn [bind] in E.
    destruct (rc4_run_ok s h Hwf 0) as (rs & p & _ & E2). change (prga_iter (N.to_nat 0) s) with s in E2. rewrite E2 in E.
    cbn [bind] in E. injection E as <-. apply rc4_drop_zero; [exact Hf | apply prga_iter_wf, Hwf].
Qed.

(** Same Rust type. *)
Definition same_type (a b : cipher) : Prop :=
  match a, b with
  | CChaCha v n _ _, CChaCha v' n' _ _ => v = v' /\ n = n'
  | CXChaCha n _ _, CXChaCha n' _ _ | CSalsa n _ _, CSalsa n' _ _ | CXSalsa n _ _, CXSalsa n' _ _ => n = n'
  | CRabbit _ _, CRabbit _ _ | CRabbitKeyOnly _, CRabbitKeyOnly _ | CHc256 _ _, CHc256 _ _ | CRc4 _, CRc4 _ => True
  | _, _ => False
  end.
Lemma same_crate a b : same_type a b -> crate_of a = crate_of b /\ size a = size b.
Proof. destruct a, b; cbn; try contradiction; intros; split; reflexivity. Qed.

(** Memory is left behind exactly by the histories that [cipher_run] completes. *)
Theorem C48_defined e f c h : (exists mem, after_drop e f c h = Ok mem) <-> (exists rs, cipher_run e c h = Ok rs).
Proof.
  assert (G : forall S (C : score S) K m end_, (exists mem, after_core C K m h end_ = Ok mem) <-> (exists rs, run_core C K m h = Ok rs)).
  { intros S C K m end_. unfold after_core, run_core. destruct m as [st|]; cbn [bind]; [|split; intros [x E]; discriminate E].
    destruct (run C K (w_new C st) h) as [[rs w]|]; cbn [bind]; (split; intros [x E]; [try discriminate E; eexists; reflexivity|try discriminate E; eexists; reflexivity]). }
  destruct c as [v n key iv | n key iv | n key iv | n key iv | key iv | key | key iv | key]; cbn [after_drop cipher_run]; cbv zeta; try apply G.
  destruct (new_from_slice key) as [[s|]|]; cbn [bind]; try (split; intros [x E]; discriminate E).
  destruct (rc4_run s h) as [[rs w]|]; cbn [bind]; (split; intros [x E]; [try discriminate E; eexists; reflexivity|try discriminate E; eexists; reflexivity]).
Qed.
Print Assumptions C48_defined.

(** Salsa20, XSalsa20, Rabbit, HC-256 and RC4 types: the crate's own feature is enough. *)
Theorem C48_wiped e1 e2 f c1 c2 h1 h2 mem1 mem2 :
  env_ok e1 -> env_ok e2 -> cipher_ok c1 -> cipher_ok c2 -> same_type c1 c2 -> crate_of c1 <> CrChaCha -> own f = true ->
  after_drop e1 f c1 h1 = Ok mem1 -> after_drop e2 f c2 h2 = Ok mem2 ->
  mem1 = mem2 /\ mem1 = repeat 0 (size c1).
Proof.
  intros He1 He2 Hc1 Hc2 Ht Hcr Hf E1 E2. destruct (same_crate _ _ Ht) as [Ec Es].
  assert (Z : cipher_zeroize (crate_of c1) f = true).
  { unfold cipher_zeroize. rewrite Hf. destruct (crate_of c1); [congruence| | | |]; cbn; apply Bool.orb_true_r. }
  apply after_drop_zero in E1; try assumption. apply after_drop_zero in E2; try assumption; [|rewrite <- Ec; exact Z].
  rewrite <- Es in E2. split; congruence.
Qed.
Print Assumptions C48_wiped.

(** ChaCha types: wiped if something else in the build also enables [cipher/zeroize]. *)
Theorem C48_chacha_partial e1 e2 f c1 c2 h1 h2 mem1 mem2 :
  env_ok e1 -> env_ok e2 -> cipher_ok c1 -> cipher_ok c2 -> same_type c1 c2 -> own f = true -> ext f = true ->
  after_drop e1 f c1 h1 = Ok mem1 -> after_drop e2 f c2 h2 = Ok mem2 ->
  mem1 = mem2 /\ mem1 = repeat 0 (size c1).
Proof.
  intros He1 He2 Hc1 Hc2 Ht Hf Hx E1 E2. destruct (same_crate _ _ Ht) as [Ec Es].
  assert (Z : forall c, cipher_zeroize c f = true) by (intros c; unfold cipher_zeroize; rewrite Hx; reflexivity).
  apply after_drop_zero in E1; auto. apply after_drop_zero in E2; auto.
  rewrite <- Es in E2. split; congruence.
Qed.
Print Assumptions C48_chacha_partial.

(** Whatever else is enabled, the key-bearing part of a dropped ChaCha cipher is wiped. *)
Theorem C48_chacha_core f (w : wrapper (list N)) z : own f = true -> List.length (w_core w) = 16%nat ->
  firstn 16 (dropped words_mem (chacha_drop f) z w) = repeat 0 16.
Proof.
  intros Hf Hl. unfold dropped, words_mem, chacha_drop. rewrite Hf, (zeroize_eq _ _ Hl). reflexivity.
Qed.
Print Assumptions C48_chacha_core.

Definition e64 : env := {| e_cfg := cf0; e_cpu := pc0; e_usz := 64; e_ck := true |}.
Definition only_own : features := {| own := true; ext := false |}.

(** FINDING: with [chacha20]'s feature [zeroize] alone, the wrapper's cached keystream block
    survives: after using 5 bytes of keystream, the other 59 (and 4 of the 5 used) remain,
    and the memory depends on the key. *)
Theorem C48_chacha_refuted :
  let k1 := repeat 1 32 in let k2 := repeat 2 32 in let iv := repeat 3 12 in
  cipher_ok (CChaCha Ietf R20 k1 iv) /\ cipher_ok (CChaCha Ietf R20 k2 iv)
  /\ (exists m1 m2, after_drop e64 only_own (CChaCha Ietf R20 k1 iv) [Write 5] = Ok m1
        /\ after_drop e64 only_own (CChaCha Ietf R20 k2 iv) [Write 5] = Ok m2 /\ m1 <> m2
        /\ skipn 17 m1 = skipn 1 (sp_ietf_block 10 k1 0 iv)).
Proof.
  cbv zeta. split; [|split].
  - cbn [cipher_ok]. split; apply octets_check; vm_compute; reflexivity.
  - cbn [cipher_ok]. split; apply octets_check; vm_compute; reflexivity.
  - eexists. eexists. split; [vm_compute; reflexivity|]. split; [vm_compute; reflexivity|].
    split; [discriminate | vm_compute; reflexivity].
Qed.
Print Assumptions C48_chacha_refuted.

(** The general form of the leak: the remaining keystream of the current block is always
    left in memory, for any ChaCha wrapper state. *)
Theorem C48_chacha_leak f (w : wrapper (list N)) : own f = true -> ext f = false -> List.length (w_core w) = 16%nat ->
  (1 <= w_cur w)%nat -> List.length (w_buf w) = 64%nat ->
  forall i, (w_cur w <= i < 64)%nat ->
  nth (16 + i) (dropped words_mem (chacha_drop f) (cipher_zeroize CrChaCha f) w) 0 = nth i (w_buf w) 0.
Proof.
  intros Hf Hx Hl Hc Hb i Hi. unfold dropped, cipher_zeroize, words_mem, chacha_drop. rewrite Hf, Hx. cbn [orb andb forwards buffer_drop].
  rewrite (zeroize_eq _ _ Hl), app_nth2 by (rewrite repeat_length; lia). rewrite repeat_length.
  replace (16 + i - 16)%nat with i by lia. unfold buffer_mem. destruct (w_buf w) as [|b l]; [discriminate Hb|].
  destruct i as [|i]; [lia|]. reflexivity.
Qed.
Print Assumptions C48_chacha_leak.

Lemma reach_shape n r : reachable n r -> rshape r.
Proof.
  intros H. induction H as [seed r [Hl Hb] E | c p a r Ha E | c p ck r o x r' H IH Ho E].
  - unfold rng_from_seed in E. rewrite new_internal_ok in E by (try assumption; reflexivity). injection E as <-.
    apply b_new_shape, mk_state_wf; try assumption; [reflexivity | repeat constructor].
  - unfold deserialize_state in E. cbv zeta in E. destruct (split49 a Ha) as (seed & st & pos & -> & Hsl & Hsb & Htl & Htb & Hpl & Hpb).
    destruct (assert_ _); [|discriminate E]. cbn [bind] in E.
    rewrite (firstn_app_len seed (st ++ pos) 32 Hsl), (skipn_app_len seed (st ++ pos) 32 Hsl), (firstn_app_len st pos 8 Htl) in E.
    rewrite new_internal_ok in E by assumption. cbn [bind] in E. apply set_word_shape in E; [exact E|].
    apply b_new_shape, mk_state_wf; assumption.
  - exact (step_shape c p n ck r o x r' IH E).
Qed.

(** The generators: core and output buffer are wiped by the crate's own feature. *)
Theorem C48_rng n f r1 r2 : own f = true -> reachable n r1 -> reachable n r2 ->
  rng_dropped f r1 = rng_dropped f r2 /\ rng_dropped f r1 = repeat 0 80.
Proof.
  intros Hf H1 H2. apply reach_shape in H1. apply reach_shape in H2.
  rewrite (rng_dropped_zero f r1 Hf H1), (rng_dropped_zero f r2 Hf H2). split; reflexivity.
Qed.
Print Assumptions C48_rng.

Definition ks32 : list N := map N.of_nat (seq 0 32).
Example C48_satisfiable :
  (exists m, after_drop e64 only_own (CXSalsa 10 ks32 (firstn 24 ks32)) [Write 70; Seek 1000; Apply [1; 2; 3]] = Ok m /\ m = repeat 0 80)
  /\ (exists m, after_drop e64 only_own (CRabbit (firstn 16 ks32) (firstn 8 ks32)) [Apply [1; 2; 3]] = Ok m /\ m = repeat 0 33)
  /\ (exists m, after_drop e64 only_own (CRc4 (firstn 5 ks32)) [Apply [1; 2; 3]] = Ok m /\ m = repeat 0 258)
  /\ (exists m, after_drop e64 {| own := true; ext := true |} (CChaCha Legacy R8 ks32 (firstn 8 ks32)) [Write 70] = Ok m /\ m = repeat 0 80).
Proof.
  repeat split; eexists; (split; [vm_compute; reflexivity | reflexivity]).
Qed.
(** Without the feature nothing is wiped: the theorems are about the drop code. *)
Example C48_feature_needed :
  after_drop e64 {| own := false; ext := false |} (CRc4 [7]) [] <> after_drop e64 {| own := false; ext := false |} (CRc4 [8]) [].
Proof. vm_compute. discriminate. Qed.
Example C48_rng_satisfiable : exists r, reachable 10 r /\ rng_dropped {| own := false; ext := true |} r <> repeat 0 80
  /\ rng_dropped only_own r = repeat 0 80.
Proof.
  destruct (rng_from_seed ks32) as [r|] eqn:E; [|vm_compute in E; discriminate E].
  exists r. assert (H : reachable 10 r) by (apply (R_seed 10 ks32 r); [apply octets_check; vm_compute; reflexivity | exact E]).
  split; [exact H|]. split; [|apply (C48_rng 10 only_own r r eq_refl H H)].
  vm_compute in E. injection E as <-. vm_compute. discriminate.
Qed.

(** The memory images leave nothing out: an image determines the value it is the image of. *)
Theorem C48_images :
  (forall st st', words_mem st = words_mem st' -> st = st')
  /\ (forall s s', List.length (r_x s) = List.length (r_x s') -> List.length (r_c s) = List.length (r_c s') -> rabbit_mem s = rabbit_mem s' -> s = s')
  /\ (forall s s', List.length (h_p s) = List.length (h_p s') -> List.length (h_q s) = List.length (h_q s') -> hc_mem s = hc_mem s' -> s = s')
  /\ (forall s s', List.length (k_state s) = List.length (k_state s') -> rc4_mem s = rc4_mem s' -> s = s').
Proof.
  split; [intros st st' E; exact E|].
  assert (A : forall a b a' b' : list N, List.length a = List.length a' -> (a ++ b = a' ++ b')%list -> a = a' /\ b = b').
  { intros a. induction a as [|x a IH]; intros b [|y a'] b' L E; cbn in *; try discriminate; [auto|].
    injection E as -> E. injection L as L. destruct (IH b a' b' L E) as [-> ->]. auto. }
  split; [|split].
  - intros [x c y] [x' c' y'] L L' E. unfold rabbit_mem in E. cbn [r_x r_c r_carry] in *.
    apply A in E; [|exact L]. destruct E as [-> E]. apply A in E; [|exact L']. destruct E as [-> E]. injection E as ->. reflexivity.
  - intros [x c y] [x' c' y'] L L' E. unfold hc_mem in E. cbn [h_p h_q h_idx] in *.
    apply A in E; [|exact L]. destruct E as [-> E]. apply A in E; [|exact L']. destruct E as [-> E]. injection E as ->. reflexivity.
  - intros [x c y] [x' c' y'] L E. unfold rc4_mem in E. cbn [k_state k_i k_j] in *.
    apply A in E; [|exact L]. destruct E as [-> E]. injection E as -> ->. reflexivity.
Qed.
Print Assumptions C48_images.
Example C48_images_satisfiable :
  rc4_mem {| k_state := [7]; k_i := 1; k_j := 2 |} <> rc4_mem {| k_state := [7]; k_i := 1; k_j := 3 |}.
Proof. vm_compute. discriminate. Qed.

(** ** C49 *)
(** The renderings are the literal texts below, whatever the state. *)
Theorem C49_debug v n st1 st2 alt name (r1 r2 : rng) (s1 s2 : hc) :
  chacha_debug v n st1 = chacha_debug v n st2
  /\ xchacha_debug alt n st1 = xchacha_debug alt n st2
  /\ rng_debug name r1 = rng_debug name r2
  /\ hc_debug s1 = hc_debug s2.
Proof. repeat split. Qed.
Print Assumptions C49_debug.
Theorem C49_texts st (r : rng) (s : hc) :
  chacha_debug Ietf R20 st = "ChaChaCore<R: 10, V: 32-bit)> { ... }"%string
  /\ chacha_debug Legacy R8 st = "ChaChaCore<R: 4, V: 64-bit)> { ... }"%string
  /\ xchacha_debug false R12 st = "XChaChaCore(ChaChaCore<R: 6, V: 32-bit)> { ... })"%string
  /\ xchacha_debug true R8 st = "XChaChaCore(
    ChaChaCore<R: 4, V: 32-bit)> { ... },
)"%string
  /\ rng_debug "ChaCha20Rng" r = "ChaCha20Rng { ... }"%string
  /\ hc_debug s = "Hc256Core { ... }"%string.
Proof. repeat split. Qed.
Print Assumptions C49_texts.
(** The text does tell the type parameters apart. *)
Example C49_distinguishes_types : chacha_debug Ietf R20 [] <> chacha_debug Legacy R20 [] /\ chacha_debug Ietf R20 [] <> chacha_debug Ietf R8 [].
Proof. split; vm_compute; discriminate. Qed.
(** The numbers are printed in decimal, as [{}] does: compared with the standard library's
    conversion for every value below 1000 (a round count is at most 10). *)
Theorem C49_decimal n : (n < 1000)%nat -> dec n = DecimalString.NilEmpty.string_of_uint (Nat.to_uint n).
Proof.
  assert (C : forallb (fun n => String.eqb (dec n) (DecimalString.NilEmpty.string_of_uint (Nat.to_uint n))) (seq 0 1000) = true)
    by (vm_compute; reflexivity).
  intros H. rewrite forallb_forall in C. apply String.eqb_eq, C, in_seq. lia.
Qed.
Print Assumptions C49_decimal.
Example C49_decimal_satisfiable : dec 240 = "240"%string.
Proof. reflexivity. Qed.
