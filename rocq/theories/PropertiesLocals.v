(** C83: what the functions leave in their own locals when the crate feature [zeroize] is on. *)
Require Import String.
From Verif Require Import WordLemmas SpecStream SpecChaCha ChaChaCore ChaChaDispatch XChaCha ChaChaSoft ChaChaProofs ChaChaDispatchProofs
  CipherWrapper WrapperProofs SpecSalsa Salsa SalsaProofs SpecRabbit Rabbit RabbitProofs SpecHC256 Hc256 Hc256Proofs Rc4 SpecRC4 Rc4Proofs
  PropCommon Ciphers CiphersProofs BlockRng ChaChaRng SpecRng RngProofs Lifecycle LifecycleProofs PropertiesSecrecy PropertiesPermutation Locals.
From Coq Require Import Lia.
Local Open Scope list_scope.
Local Open Scope N_scope.


Lemma ok_inj {A} (x y : A) : Ok x = Ok y -> y = x.
Proof. congruence. Qed.
(** Content of the local called [x]. *)
Fixpoint look (x : string) (l : locals) : list N :=
  match l with
  | [] => []
  | (y, v) :: l' => if String.eqb x y then v else look x l'
  end.
Lemma look_app x l1 l2 : ~ In x (map fst l1) -> look x (l1 ++ l2) = look x l2.
Proof.
  induction l1 as [|[y v] l1 IH]; intros H; [reflexivity|]. cbn in *.
  destruct (String.eqb_spec x y) as [->|_]; [exfalso; apply H; left; reflexivity|]. apply IH. tauto.
Qed.
Lemma look_in x l1 l2 : In x (map fst l1) -> look x (l1 ++ l2) = look x l1.
Proof.
  induction l1 as [|[y v] l1 IH]; intros H; [destruct H|]. cbn in *.
  destruct (String.eqb_spec x y) as [->|Hn]; [reflexivity|]. apply IH. destruct H as [H|H]; [congruence|exact H].
Qed.

(** The key of a cipher. *)
Definition key_of (c : cipher) : list N :=
  match c with
  | CChaCha _ _ key _ | CXChaCha _ key _ | CSalsa _ key _ | CXSalsa _ key _ | CRabbit key _ | CRabbitKeyOnly key
  | CHc256 key _ | CRc4 key => key
  end.
(** The types whose constructors keep nothing. *)
Definition keeps_nothing (c : cipher) : bool :=
  match c with CChaCha _ _ _ _ | CSalsa _ _ _ | CRc4 _ => true | _ => false end.

(** ** The functions of [Locals] compute what the model computes *)
Definition drop_l {A} (m : Res (A * locals)) : Res A := do (x, _) <- m; Ok x.

Lemma hchacha_l_eq n key input : List.length key = 32%nat -> List.length input = 16%nat ->
  hchacha_l n key input = (hchacha n key input, [("state"%string, iter_n n double_round (hstate key input))]).
Proof.
  intros Hk Hi. unfold hchacha_l, hchacha, hstate. cbv zeta.
  pose proof (words_of_bytes_length 8 key Hk) as Hkw. pose proof (words_of_bytes_length 4 input Hi) as Hiw.
  destruct (words_of_bytes key) as [|k0 [|k1 [|k2 [|k3 [|k4 [|k5 [|k6 [|k7 [|]]]]]]]]]; try discriminate Hkw.
  destruct (words_of_bytes input) as [|i0 [|i1 [|i2 [|i3 [|]]]]]; try discriminate Hiw.
  reflexivity.
Qed.
Lemma hsalsa_l_eq n key input : List.length key = 32%nat -> List.length input = 16%nat ->
  hsalsa_l n key input = (hsalsa n key input, [("state"%string, iter_n n s_double_round (s_matrix key (words_of_bytes input)))]).
Proof.
  intros Hk Hi. unfold hsalsa_l, hsalsa, s_matrix. destruct (half_key key Hk) as [H1 H2].
  pose proof (words_of_bytes_length 4 input Hi) as H3. change (slice key 0 16) with (firstn 16 key).
  set (a := words_of_bytes (firstn 16 key)) in *. set (b := words_of_bytes (skipn 16 key)) in *.
  set (i := words_of_bytes input) in *. clearbody a b i. len4 a H1. len4 b H2. len4 i H3.
  cbv zeta. cbn [repeat upd set_words app S_CONSTANTS]. unfold get at 1 2 3 4 9 10 11 12. cbn [nth]. reflexivity.
Qed.
Lemma xchacha_new_l_eq n key iv : octets 32 key -> octets 24 iv ->
  xchacha_new_l n key iv =
  Ok (mk_state Ietf (hchacha n key (firstn 16 iv)) (xnonce iv) 0,
      [("state"%string, iter_n n double_round (hstate key (firstn 16 iv))); ("subkey"%string, hchacha n key (firstn 16 iv)); ("nonce"%string, xnonce iv)]).
Proof.
  intros [Hk Bk] [Hi Bi].
  assert (H16 : List.length (firstn 16 iv) = 16%nat) by (rewrite firstn_length, Hi; reflexivity).
  unfold xchacha_new_l. cbv zeta. rewrite hchacha_l_eq by assumption.
  rewrite H16, !skipn_length, repeat_length, Hi. cbn [Nat.sub Nat.eqb assert_ bind].
  unfold new_internal_l. change (firstn 4 (repeat 0 12) ++ skipn 16 iv) with (xnonce iv).
  rewrite new_internal_ok; [reflexivity| |].
  - apply hchacha_length; try assumption. apply bytes_firstn; exact Bi.
  - unfold xnonce. rewrite app_length, skipn_length, repeat_length, Hi. reflexivity.
Qed.
Lemma xsalsa_new_l_eq n key iv : octets 32 key -> octets 24 iv ->
  xsalsa_new_l n key iv =
  (xsalsa_new n key iv,
   [("state"%string, iter_n n s_double_round (s_matrix key (words_of_bytes (firstn 16 iv)))); ("subkey"%string, hsalsa n key (firstn 16 iv)); ("padded_iv"%string, skipn 16 iv)]).
Proof.
  intros [Hk Bk] [Hi Bi].
  assert (H16 : List.length (firstn 16 iv) = 16%nat) by (rewrite firstn_length, Hi; reflexivity).
  unfold xsalsa_new_l. rewrite hsalsa_l_eq by assumption. reflexivity.
Qed.

(** Rabbit. *)
Lemma next_state_l_eq ck s : drop_l (next_state_l ck s) = next_state ck s.
Proof.
  unfold next_state_l, next_state, drop_l. cbv zeta. destruct (counter_update ck s) as [s1|]; [|reflexivity]. cbn [bind].
  destruct (for_ (seq 0 8) (g_step ck s1) (repeat 0 8)); reflexivity.
Qed.
Lemma next_state_l_names ck s s' l : next_state_l ck s = Ok (s', l) -> next_state ck s = Ok s' /\ map fst l = ["g"%string].
Proof.
  intros E. split; [rewrite <- next_state_l_eq; unfold drop_l; rewrite E; reflexivity|].
  unfold next_state_l in E. cbv zeta in E. destruct (counter_update ck s) as [s1|]; [|discriminate]. cbn [bind] in E.
  destruct (for_ (seq 0 8) (g_step ck s1) (repeat 0 8)) as [g|]; [|discriminate]. cbn [bind] in E.
  assert (X : l = [("g"%string, g)]) by congruence. rewrite X. reflexivity.
Qed.
Lemma next_state_l_of ck s s' : next_state ck s = Ok s' -> exists l, next_state_l ck s = Ok (s', l) /\ map fst l = ["g"%string].
Proof.
  intros E. rewrite <- next_state_l_eq in E. unfold drop_l in E.
  destruct (next_state_l ck s) as [[s1 l]|] eqn:El; [|discriminate]. cbn [bind] in E.
  assert (X : s1 = s') by congruence. subst s1. exists l. split; [reflexivity|]. apply (next_state_l_names ck s s' l El).
Qed.
Definition gs : list string := ["g"; "g"; "g"; "g"]%string.
Definition step_l ck := (fun (_ : nat) (p : rstate * locals) => let (s, l) := p in do (s', l') <- next_state_l ck s; Ok (s', l ++ l')).
Lemma loop_l ck k : forall a s s' l0, for_ (seq a k) (fun _ => next_state ck) s = Ok s' ->
  exists l, for_ (seq a k) (step_l ck) (s, l0) = Ok (s', l0 ++ l) /\ map fst l = repeat "g"%string k.
Proof.
  induction k as [|k IH]; intros a s s' l0 E; cbn [seq for_] in *.
  - exists []. rewrite app_nil_r. split; [injection E as <-; reflexivity|reflexivity].
  - destruct (next_state ck s) as [s1|] eqn:E1; [|discriminate]. cbn [bind] in E.
    destruct (next_state_l_of ck s s1 E1) as (l1 & El & Nl).
    destruct (IH (S a) s1 s' (l0 ++ l1) E) as (l2 & E2 & N2).
    exists (l1 ++ l2). assert (S1 : step_l ck a (s, l0) = Ok (s1, l0 ++ l1)) by (unfold step_l; rewrite El; reflexivity). rewrite S1. cbn [bind]. rewrite E2, app_assoc. split; [reflexivity|].
    rewrite map_app, Nl, N2. reflexivity.
Qed.
Lemma next_state4_l_of ck s s' : next_state4 ck s = Ok s' ->
  exists l, next_state4_l ck s = Ok (s', l) /\ map fst l = gs.
Proof.
  intros E. unfold next_state4 in E. destruct (loop_l ck 4 0 s s' [] E) as (l & El & Nl).
  exists l. split; [exact El|exact Nl].
Qed.
Lemma not_gs x l : map fst l = gs -> x <> "g"%string -> ~ In x (map (@fst string (list N)) l).
Proof. intros -> H. unfold gs. cbn. intuition congruence. Qed.
Lemma setup_key_l_of ck key s : setup_key ck key = Ok s ->
  exists l, setup_key_l ck key = Ok (s, l ++ [("key"%string, key); ("k"%string, map (subkey key) (seq 0 8))]) /\ map fst l = gs.
Proof.
  unfold setup_key, setup_key_l. cbv zeta.
  destruct (fold_left _ (seq 0 8) (repeat 0 8, repeat 0 8)) as [x c].
  intros E. destruct (next_state4 ck _) as [s1|] eqn:E4; [|discriminate E]. cbn [bind] in E.
  destruct (next_state4_l_of ck _ s1 E4) as (l & El & Nl). rewrite El. cbn [bind]. exists l. split; [|exact Nl]. congruence.
Qed.
Lemma setup_iv_l_of ck iv s s' : setup_iv ck iv s = Ok s' ->
  exists l i, setup_iv_l ck iv s = Ok (s', l ++ [("iv"%string, iv); ("i"%string, i)]) /\ map fst l = gs.
Proof.
  unfold setup_iv, setup_iv_l. cbv zeta. intros E.
  destruct (next_state4_l_of ck _ s' E) as (l & El & Nl). rewrite El. cbn [bind]. exists l. eexists. split; [reflexivity|exact Nl].
Qed.

(** HC-256: [data] is the whole expanded array. *)
Lemma hc_new_l_ok ck usz key iv : octets 32 key -> octets 32 iv -> usize_ok usz ->
  exists s data, hc_new_l ck usz key iv = Ok (s, [("data"%string, data)]) /\ hc_new ck usz key iv = Ok s
  /\ List.length data = 2660%nat /\ forall k, (k < 2660)%nat -> nth k data 0 = hc_W key iv k.
Proof.
  intros [Hkl Hkb] [Hil Hib] Hu. unfold hc_new_l, hc_new. cbv zeta.
  change (N.to_nat KEY_WORDS) with 8%nat. change (N.to_nat IV_WORDS) with 8%nat.
  destruct (key_loop key iv Hkl Hkb Hil Hib 8 (le_n _)) as (d1 & E1 & H1). rewrite E1. cbn [bind].
  destruct (iv_loop key iv Hkl Hkb Hil Hib d1 8 H1 (le_n _)) as (d2 & E2 & H2). rewrite E2. cbn [bind].
  destruct (expand_loop key iv Hkl Hkb Hil Hib ck usz d2 2644 H2 (le_n _)) as (d3 & E3 & H3). rewrite E3. cbn [bind].
  destruct (filled_slice key iv Hkl Hkb Hil Hib d3 512 H3 ltac:(lia)) as [E4 H4]. rewrite E4. cbn [bind].
  destruct (filled_slice key iv Hkl Hkb Hil Hib d3 1536 H3 ltac:(lia)) as [E5 H5]. rewrite E5. cbn [bind].
  destruct (gen_iter_ok ck usz {| h_p := slice d3 512 1024; h_q := slice d3 1536 1024; h_idx := 0 |} (hc_tables key iv) 4096 Hu) as (s & E6 & H6).
  { split; [exact H4|]. split; [exact H5|]. reflexivity. }
  exists s, d3. rewrite E6. cbn [bind]. split; [reflexivity|]. split; [reflexivity|]. exact H3.
Qed.

(** Every constructor succeeds. *)
Lemma chacha_sizes v n key iv : cipher_ok (CChaCha v n key iv) -> List.length key = 32%nat /\ List.length iv = nonce_len v.
Proof. destruct v; cbn; intros [[? ?] [? ?]]; split; assumption. Qed.
Lemma usz_ok e : env_ok e -> usize_ok (2 ^ e_usz e).
Proof. unfold usize_ok. intros [-> | [-> | ->]]; [left | right; left | right; right]; reflexivity. Qed.
Lemma rabbit_l ck key iv : octets 16 key -> octets 8 iv -> exists s l i l1 l2, rabbit_new_l ck key iv = Ok (s, l)
  /\ rabbit_new ck key iv = Ok s
  /\ l = (l1 ++ [("key"%string, key); ("k"%string, map (subkey key) (seq 0 8))]) ++ (l2 ++ [("iv"%string, iv); ("i"%string, i)])
  /\ map fst l1 = gs /\ map fst l2 = gs.
Proof.
  intros [Hk Bk] [Hi Bi]. destruct (setup_key_ok ck key Hk Bk) as (s1 & E1 & W1 & _). destruct (setup_iv_ok ck iv s1 Hi Bi W1) as (s & E & _).
  destruct (setup_key_l_of ck key s1 E1) as (l1 & L1 & N1). destruct (setup_iv_l_of ck iv s1 s E) as (l2 & i & L2 & N2).
  exists s. eexists. exists i, l1, l2. unfold rabbit_new_l, rabbit_key_only_l. rewrite L1. cbn [bind]. rewrite L2. cbn [bind].
  split; [reflexivity|]. split; [unfold rabbit_new, rabbit_key_only; rewrite E1; exact E|]. split; [reflexivity|]. split; assumption.
Qed.
Lemma rabbit_ko_l ck key : octets 16 key -> exists s l1, 
  rabbit_key_only_l ck key = Ok (s, l1 ++ [("key"%string, key); ("k"%string, map (subkey key) (seq 0 8))])
  /\ rabbit_key_only ck key = Ok s /\ map fst l1 = gs.
Proof.
  intros [Hk Bk]. destruct (setup_key_ok ck key Hk Bk) as (s & E & _). destruct (setup_key_l_of ck key s E) as (l1 & L1 & N1).
  exists s, l1. split; [exact L1|]. split; [exact E|exact N1].
Qed.

(** ** C83 *)
(** The copies with locals are the model's functions. *)
Theorem C83_same e :
  (forall v key iv, drop_l (new_internal_l v key iv) = new_internal v key iv)
  /\ (forall n key iv, octets 32 key -> octets 24 iv -> drop_l (xchacha_new_l n key iv) = xchacha_new n key iv)
  /\ (forall key iv, fst (salsa_new_l key iv) = salsa_new key iv)
  /\ (forall n key iv, octets 32 key -> octets 24 iv -> fst (xsalsa_new_l n key iv) = xsalsa_new n key iv)
  /\ (forall key iv, octets 16 key -> octets 8 iv -> drop_l (rabbit_new_l (e_ck e) key iv) = rabbit_new (e_ck e) key iv)
  /\ (forall key, octets 16 key -> drop_l (rabbit_key_only_l (e_ck e) key) = rabbit_key_only (e_ck e) key)
  /\ (forall key iv, env_ok e -> octets 32 key -> octets 32 iv ->
        drop_l (hc_new_l (e_ck e) (2 ^ e_usz e) key iv) = hc_new (e_ck e) (2 ^ e_usz e) key iv)
  /\ (forall key, new_from_slice key = do r <- new_from_slice_l key; Ok (match r with Some (s, _) => Some s | None => None end))
  /\ (forall v n st, fst (soft_gen_ks_block_l v n st) = soft_gen_ks_block v n st)
  /\ (forall ck n st, drop_l (salsa_gen_ks_block_l ck n st) = salsa_gen_ks_block ck n st)
  /\ (forall seed, drop_l (rng_from_seed_l seed) = rng_from_seed seed)
  /\ (forall ck r, drop_l (serialize_state_l ck r) = serialize_state ck r)
  /\ (forall G a, drop_l (deserialize_state_l G a) = deserialize_state G a)
  /\ (forall a b, fst (rng_eq_l a b) = rng_eq a b).
Proof.
  unfold drop_l. repeat match goal with |- _ /\ _ => split end.
  - intros v key iv. unfold new_internal_l. destruct (new_internal v key iv); reflexivity.
  - intros n key iv Hk Hi. rewrite xchacha_new_l_eq by assumption. destruct Hk, Hi. rewrite xchacha_new_ok by assumption. reflexivity.
  - reflexivity.
  - intros n key iv Hk Hi. rewrite xsalsa_new_l_eq by assumption. reflexivity.
  - intros key iv Hk Hi. destruct (rabbit_l (e_ck e) key iv Hk Hi) as (s & l & i & l1 & l2 & -> & -> & _). reflexivity.
  - intros key Hk. destruct (rabbit_ko_l (e_ck e) key Hk) as (s & l & -> & -> & _). reflexivity.
  - intros key iv He Hk Hi. destruct (hc_new_l_ok (e_ck e) (2 ^ e_usz e) key iv Hk Hi (usz_ok e He)) as (s & d & -> & -> & _). reflexivity.
  - intros key. unfold new_from_slice_l. destruct (new_from_slice key) as [[s|]|]; reflexivity.
  - reflexivity.
  - intros ck n st. unfold salsa_gen_ks_block_l, salsa_gen_ks_block. cbv zeta. destruct (add_ck _ _ _ _); reflexivity.
  - intros seed. unfold rng_from_seed_l, new_internal_l, rng_from_seed. destruct (new_internal _ _ _); reflexivity.
  - intros ck r. unfold serialize_state_l, serialize_state. cbv zeta. destruct (assert_ (negb _ || _)); [|reflexivity]. cbn [bind].
    destruct (assert_ _); reflexivity.
  - intros G a. unfold deserialize_state_l, deserialize_state, new_internal_l. cbv zeta. destruct (assert_ _); [|reflexivity]. cbn [bind].
    destruct (new_internal _ _ _); [|reflexivity]. cbn [bind]. destruct (rng_set_word_pos _ _ _); reflexivity.
  - reflexivity.
Qed.
Print Assumptions C83_same.

(** ChaCha, Salsa and RC4 constructors keep nothing; all constructors return. *)
Theorem C83_total_partial e c : env_ok e -> cipher_ok c ->
  exists l, left_behind e c = Ok l /\ (keeps_nothing c = true -> l = []).
Proof.
  intros He Hc. destruct c as [v n key iv | n key iv | n key iv | n key iv | key iv | key | key iv | key]; cbn [left_behind keeps_nothing].
  - destruct (chacha_sizes v n key iv Hc). unfold new_internal_l. rewrite new_internal_ok by assumption. exists []. split; reflexivity.
  - destruct Hc as [Hk Hi]. rewrite xchacha_new_l_eq by assumption. eexists. split; [reflexivity|discriminate].
  - exists []. split; reflexivity.
  - destruct Hc as [Hk Hi]. rewrite xsalsa_new_l_eq by assumption. eexists. split; [reflexivity|discriminate].
  - destruct Hc as [Hk Hi]. destruct (rabbit_l (e_ck e) key iv Hk Hi) as (s & l & i & l1 & l2 & -> & _). eexists. split; [reflexivity|discriminate].
  - destruct (rabbit_ko_l (e_ck e) key Hc) as (s & l & -> & _). eexists. split; [reflexivity|discriminate].
  - destruct Hc as [Hk Hi]. destruct (hc_new_l_ok (e_ck e) (2 ^ e_usz e) key iv Hk Hi (usz_ok e He)) as (s & d & -> & _). eexists. split; [reflexivity|discriminate].
  - destruct Hc as [Hk Bk]. destruct (new_ok key Hk) as (s & E & _). unfold new_from_slice_l. rewrite E. exists []. split; reflexivity.
Qed.
Print Assumptions C83_total_partial.

(** What is left in each of the other types. *)
Theorem C83_content e c : env_ok e -> cipher_ok c -> forall l, left_behind e c = Ok l ->
  match c with
  | CXChaCha n key iv => look "subkey" l = sp_hchacha n key (firstn 16 iv) /\ look "nonce" l = repeat 0 4 ++ skipn 16 iv
  | CXSalsa n key iv => look "subkey" l = ss_hsalsa n key (firstn 16 iv) /\ look "padded_iv" l = skipn 16 iv
  | CRabbit key iv => look "key" l = key /\ look "iv" l = iv
  | CRabbitKeyOnly key => look "key" l = key
  | CHc256 key iv => forall k, (k < 2660)%nat -> nth k (look "data" l) 0 = hc_W key iv k
  | _ => l = []
  end.
Proof.
  intros He Hc l E. destruct c as [v n key iv | n key iv | n key iv | n key iv | key iv | key | key iv | key]; cbn [left_behind] in E.
  - destruct (chacha_sizes v n key iv Hc). unfold new_internal_l in E. rewrite new_internal_ok in E by assumption. cbn [bind] in E. congruence.
  - destruct Hc as [Hk Hi]. rewrite xchacha_new_l_eq in E by assumption. cbn [bind] in E. injection E as <-. destruct Hk as [Lk Bk], Hi as [Li Bi].
    cbn [look String.eqb Ascii.eqb Bool.eqb]. split; [|reflexivity]. apply hchacha_spec; try assumption; [rewrite firstn_length, Li; reflexivity | apply bytes_firstn; exact Bi].
  - cbn in E. congruence.
  - destruct Hc as [Hk Hi]. rewrite xsalsa_new_l_eq in E by assumption. injection E as <-. destruct Hk as [Lk Bk], Hi as [Li Bi].
    cbn [look String.eqb Ascii.eqb Bool.eqb]. split; [|reflexivity]. apply hsalsa_spec; try assumption; [rewrite firstn_length, Li; reflexivity | apply bytes_firstn; exact Bi].
  - destruct Hc as [Hk Hi]. destruct (rabbit_l (e_ck e) key iv Hk Hi) as (s & l' & i & l1 & l2 & El & _ & -> & N1 & N2). rewrite El in E. cbn [bind] in E. injection E as <-.
    rewrite <- app_assoc. split.
    + rewrite look_app by (apply not_gs; [exact N1|discriminate]). reflexivity.
    + rewrite look_app by (apply not_gs; [exact N1|discriminate]). cbn [app look String.eqb Ascii.eqb Bool.eqb].
      rewrite look_app by (apply not_gs; [exact N2|discriminate]). reflexivity.
  - destruct (rabbit_ko_l (e_ck e) key Hc) as (s & l1 & El & _ & N1). rewrite El in E. cbn [bind] in E. injection E as <-.
    rewrite look_app by (apply not_gs; [exact N1|discriminate]). reflexivity.
  - destruct Hc as [Hk Hi]. destruct (hc_new_l_ok (e_ck e) (2 ^ e_usz e) key iv Hk Hi (usz_ok e He)) as (s & d & El & _ & Hd & Hw). rewrite El in E. cbn [bind] in E. injection E as <-. exact Hw.
  - destruct Hc as [Hk Bk]. destruct (new_ok key Hk) as (s & En & _). unfold new_from_slice_l in E. rewrite En in E. cbn [bind] in E. congruence.
Qed.
Print Assumptions C83_content.

(** FINDING.  Whatever features are on, whatever is done with the cipher, and although the memory
    of the dropped cipher is all zeros, the key can be computed from the constructor's locals:
    for XChaCha and XSalsa by running the rounds of HChaCha and HSalsa backwards, for Rabbit
    from the copied key, for HC-256 from the first words of the expanded array. *)
Definition recover_key (c : cipher) (l : locals) : list N :=
  match c with
  | CXChaCha n _ _ => bytes_of_words (firstn 8 (skipn 4 (iter_n n undo_double_round (look "state" l))))
  | CXSalsa n _ _ =>
      let st := iter_n n undo_s_double_round (look "state" l) in
      bytes_of_words (firstn 4 (skipn 1 st) ++ firstn 4 (skipn 11 st))
  | CRabbit _ _ | CRabbitKeyOnly _ => flat_map (fun w => [w mod 256; w / 256]) (look "k" l)
  | CHc256 _ _ => bytes_of_words (firstn 8 (look "data" l))
  | _ => []
  end.
Lemma halves key : bytes key -> List.length key = 16%nat ->
  flat_map (fun w => [w mod 256; w / 256]) (map (subkey key) (seq 0 8)) = key.
Proof.
  intros Hb Hl. do 16 (destruct key as [|? key]; [discriminate Hl|]). destruct key; [|discriminate Hl].
  assert (B := Hb). unfold bytes in B. repeat (apply Forall_cons_iff in B as [? B]). unfold W8 in *.
  cbn [seq map flat_map app]. rewrite !subkey_eq by exact Hb. cbn [Nat.mul Nat.add get nth]. unfold get. cbn [nth].
  assert (P : forall a b : N, a < 256 -> (a + 256 * b) mod 256 = a /\ (a + 256 * b) / 256 = b).
  { intros a b Ha. rewrite (N.mul_comm 256 b), N.mod_add, N.div_add, N.mod_small, N.div_small by (assumption || discriminate). split; reflexivity. }
  repeat match goal with Ha : ?a < 256 |- context [(?a + 256 * ?b) mod 256] => destruct (P a b Ha) as [-> ->] end. reflexivity.
Qed.
Lemma recover_ok e c l : env_ok e -> cipher_ok c -> keeps_nothing c = false -> left_behind e c = Ok l -> recover_key c l = key_of c.
Proof.
  intros He Hc Hn E. destruct c as [v n key iv | n key iv | n key iv | n key iv | key iv | key | key iv | key]; try discriminate Hn; cbn [left_behind] in E; cbn [recover_key key_of].
  - destruct Hc as [Hk Hi]. rewrite xchacha_new_l_eq in E by assumption. cbn [bind] in E. apply ok_inj in E; subst l. destruct Hk as [Lk Bk], Hi as [Li Bi].
    cbn [look String.eqb Ascii.eqb Bool.eqb].
    assert (H16 : List.length (firstn 16 iv) = 16%nat) by (rewrite firstn_length, Li; reflexivity).
    assert (W := hstate_wf key (firstn 16 iv) Lk H16 Bk (bytes_firstn _ _ Bi)).
    destruct (iter_undo double_round undo_double_round (fun s H => double_round_wf s (proj1 H)) undo_double_round_do do_undo_double_round n _ W) as (_ & _ & -> & _).
    unfold hstate. pose proof (words_of_bytes_length 8 key Lk) as Hw. change (skipn 4 (CONSTANTS ++ ?x)) with x.
    rewrite firstn_app, Hw, Nat.sub_diag, firstn_all2 by (rewrite Hw; apply le_n). cbn [firstn]. rewrite app_nil_r.
    apply (bytes_of_words_of_bytes 8); assumption.
  - destruct Hc as [Hk Hi]. rewrite xsalsa_new_l_eq in E by assumption. cbn [snd] in E. cbv zeta. apply ok_inj in E; subst l. destruct Hk as [Lk Bk], Hi as [Li Bi].
    cbn [look String.eqb Ascii.eqb Bool.eqb].
    assert (H16 : List.length (firstn 16 iv) = 16%nat) by (rewrite firstn_length, Li; reflexivity).
    assert (W : wf16 (s_matrix key (words_of_bytes (firstn 16 iv)))).
    { apply s_matrix_wf; try assumption. - apply (words_of_bytes_length 4); exact H16. - apply words_of_bytes_wf, bytes_firstn; exact Bi. }
    destruct (iter_undo s_double_round undo_s_double_round s_double_round_wf undo_s_double_round_do do_undo_s_double_round n _ W) as (_ & _ & -> & _).
    unfold s_matrix. destruct (half_key key Lk) as [H1 H2]. assert (H3 := words_of_bytes_length 4 (firstn 16 iv) H16).
    assert (K1 : bytes_of_words (words_of_bytes (firstn 16 key)) = firstn 16 key).
    { apply (bytes_of_words_of_bytes 4); [rewrite firstn_length, Lk; reflexivity | apply bytes_firstn; exact Bk]. }
    assert (K2 : bytes_of_words (words_of_bytes (skipn 16 key)) = skipn 16 key).
    { apply (bytes_of_words_of_bytes 4); [rewrite skipn_length, Lk; reflexivity | apply bytes_skipn; exact Bk]. }
    assert (KK : bytes_of_words (words_of_bytes (firstn 16 key)) ++ bytes_of_words (words_of_bytes (skipn 16 key)) = key) by (rewrite K1, K2; apply firstn_skipn).
    clear K1 K2. eapply eq_trans; [|exact KK]. clear KK W.
    set (a := words_of_bytes (firstn 16 key)) in *. set (b := words_of_bytes (skipn 16 key)) in *.
    set (i := words_of_bytes (firstn 16 iv)) in *. clearbody a b i. len4 a H1. len4 b H2. len4 i H3. 
    cbn [app skipn firstn]. rewrite <- bytes_of_words_app. reflexivity.
  - destruct Hc as [Hk Hi]. destruct (rabbit_l (e_ck e) key iv Hk Hi) as (s & l' & i & l1 & l2 & El & _ & -> & N1 & N2). rewrite El in E. cbn [bind] in E. apply ok_inj in E; subst l.
    rewrite <- app_assoc. rewrite look_app by (apply not_gs; [exact N1|discriminate]). apply halves; apply Hk.
  - destruct (rabbit_ko_l (e_ck e) key Hc) as (s & l1 & El & _ & N1). rewrite El in E. cbn [bind] in E. apply ok_inj in E; subst l.
    rewrite look_app by (apply not_gs; [exact N1|discriminate]). apply halves; apply Hc.
  - destruct Hc as [Hk Hi]. destruct (hc_new_l_ok (e_ck e) (2 ^ e_usz e) key iv Hk Hi (usz_ok e He)) as (s & d & El & _ & Hd & Hw). rewrite El in E. cbn [bind] in E. apply ok_inj in E; subst l.
    cbn [look String.eqb Ascii.eqb Bool.eqb]. destruct Hk as [Lk Bk], Hi as [Li Bi].
    eapply eq_trans; [|apply (bytes_of_words_of_bytes 8 key Lk Bk)]. f_equal.
    apply (nth_ext _ _ 0 0).
    + rewrite firstn_length, Hd, (words_of_bytes_length 8 key Lk). reflexivity.
    + intros k Hlt. rewrite firstn_length, Hd in Hlt. assert (Hk8 : (k < 8)%nat) by (apply Nat.lt_le_trans with (1 := Hlt); apply Nat.le_min_l). clear Hlt.
      assert (Nf : nth k (firstn 8 d) 0 = nth k d 0).
      { rewrite <- (firstn_skipn 8 d) at 2. rewrite app_nth1; [reflexivity|]. rewrite firstn_length, Hd. exact Hk8. }
      rewrite Nf, Hw by lia. rewrite (W_init key iv Lk Bk Li Bi) by lia. rewrite app_nth1; [reflexivity|]. rewrite (words_of_bytes_length 8 key Lk). exact Hk8.
Qed.

Theorem C83_refuted e f c h mem l : env_ok e -> cipher_ok c -> keeps_nothing c = false -> own f = true -> ext f = true ->
  after_drop e f c h = Ok mem -> left_behind e c = Ok l ->
  mem = repeat 0 (size c)
  /\ match c with
     | CXChaCha n _ _ => bytes_of_words (firstn 8 (skipn 4 (iter_n n undo_double_round (look "state" l))))
     | CXSalsa n _ _ =>
         let st := iter_n n undo_s_double_round (look "state" l) in
         bytes_of_words (firstn 4 (skipn 1 st) ++ firstn 4 (skipn 11 st))
     | CRabbit _ _ | CRabbitKeyOnly _ => flat_map (fun w => [w mod 256; w / 256]) (look "k" l)
     | CHc256 _ _ => bytes_of_words (firstn 8 (look "data" l))
     | _ => []
     end = key_of c.
Proof.
  intros He Hc Hn Ho Hx Ed El. split.
  - apply (after_drop_zero e f c h mem He Hc Ho); [|exact Ed]. unfold cipher_zeroize. rewrite Hx. reflexivity.
  - exact (recover_ok e c l He Hc Hn El).
Qed.
Print Assumptions C83_refuted.
(** So two ciphers of one type with different keys leave different locals: "with [zeroize], nothing
    that depends on the key is left" fails for every pair of keys of these types. *)
Theorem C83_differ e c1 c2 : env_ok e -> cipher_ok c1 -> cipher_ok c2 -> same_type c1 c2 -> keeps_nothing c1 = false ->
  key_of c1 <> key_of c2 -> left_behind e c1 <> left_behind e c2.
Proof.
  intros He H1 H2 Ht Hn Hk E. destruct (C83_total_partial e c1 He H1) as (l & E1 & _). assert (E2 := E1). rewrite E in E2.
  assert (Hn2 : keeps_nothing c2 = false) by (destruct c1, c2; cbn in *; try contradiction; congruence).
  apply Hk. rewrite <- (recover_ok e c1 l He H1 Hn E1), <- (recover_ok e c2 l He H2 Hn2 E2).
  destruct c1, c2; cbn in Ht; try contradiction; cbn in Hn; try discriminate; try subst; reflexivity.
Qed.
Print Assumptions C83_differ.

(** [subkey] alone is enough for the keystream: it is the key of a ChaCha or Salsa cipher, with
    the nonce beside it, that computes the same. *)
Theorem C83_subkey e n key iv l : env_ok e -> octets 32 key -> octets 24 iv ->
  (left_behind e (CXChaCha n key iv) = Ok l -> forall i,
     sp_xchacha_block n key i iv = sp_ietf_block n (look "subkey" l) i (look "nonce" l))
  /\ (left_behind e (CXSalsa n key iv) = Ok l -> forall i,
     ss_xblock n key iv i = ss_block n (look "subkey" l) (look "padded_iv" l) i).
Proof.
  intros He Hk Hi. split; intros E i.
  - destruct (C83_content e (CXChaCha n key iv) He (conj Hk Hi) l E) as [-> ->]. unfold sp_xchacha_block. reflexivity.
  - destruct (C83_content e (CXSalsa n key iv) He (conj Hk Hi) l E) as [-> ->]. unfold ss_xblock. reflexivity.
Qed.
Print Assumptions C83_subkey.

(** The portable block functions keep only the block they hand out. *)
Theorem C83_blocks :
  (forall v n st o st' l, soft_gen_ks_block_l v n st = (o, st', l) -> l = [("res"%string, look "res" l)] /\ bytes_of_words (look "res" l) = o)
  /\ (forall ck n st o st' l, salsa_gen_ks_block_l ck n st = Ok (o, st', l) -> l = [("res"%string, look "res" l)] /\ bytes_of_words (look "res" l) = o).
Proof.
  split.
  - intros v n st o st' l E. unfold soft_gen_ks_block_l in E. cbv zeta in E.
    assert (X : l = [("res"%string, run_rounds n st)] /\ o = bytes_of_words (run_rounds n st)) by (split; congruence). destruct X as [-> ->]. split; reflexivity.
  - intros ck n st o st' l E. unfold salsa_gen_ks_block_l in E. cbv zeta in E. destruct (add_ck _ _ _ _) as [p|]; [|discriminate]. cbn [bind] in E.
    assert (X : l = [("res"%string, s_run_rounds n st)] /\ o = bytes_of_words (s_run_rounds n st)) by (split; congruence). destruct X as [-> ->]. split; reflexivity.
Qed.
Print Assumptions C83_blocks.

(** Generators: [from_seed], [serialize_state] and [==] leave whole seeds, [deserialize_state]
    only the position. *)
Theorem C83_rng :
  (forall seed, octets 32 seed -> exists r, rng_from_seed_l seed = Ok (r, [("seed"%string, seed)]))
  /\ (forall ck r a l, serialize_state_l ck r = Ok (a, l) -> look "seed" l = firstn 32 a)
  /\ (forall a b, snd (rng_eq_l a b) = [("self.get_seed()"%string, get_seed a); ("rhs.get_seed()"%string, get_seed b)])
  /\ (forall G a r l, deserialize_state_l G a = Ok (r, l) -> l = [("word_pos_buf"%string, skipn 40 a ++ repeat 0 7)]).
Proof.
  split; [|split; [|split]].
  - intros seed [Hl Hb]. unfold rng_from_seed_l, new_internal_l. rewrite new_internal_ok by (assumption || reflexivity). cbn [bind app]. eexists. reflexivity.
  - intros ck r a l E. unfold serialize_state_l in E. cbv zeta in E. destruct (assert_ (negb _ || _)); [|discriminate]. cbn [bind] in E.
    destruct (List.length (get_seed r) =? 32)%nat eqn:L; [|discriminate E]. apply Nat.eqb_eq in L.
    destruct (assert_ _); [|discriminate]. cbn [bind] in E. apply ok_inj in E. 
    assert (X : a = get_seed r ++ to_le 8 (get_stream r) ++ firstn 9 (to_le 16 (get_word_pos r))) by congruence.
    assert (Y : look "seed" l = get_seed r) by (replace l with (snd (a, l)) by reflexivity; rewrite E; reflexivity).
    rewrite X, Y, firstn_app, L, Nat.sub_diag, firstn_all2 by (rewrite L; apply le_n). cbn [firstn]. rewrite app_nil_r. reflexivity.
  - reflexivity.
  - intros G a r l E. unfold deserialize_state_l, new_internal_l in E. cbv zeta in E. destruct (assert_ _); [|discriminate]. cbn [bind] in E.
    destruct (new_internal _ _ _); [|discriminate]. cbn [bind] in E. destruct (rng_set_word_pos _ _ _); [|discriminate]. cbn [bind app] in E.
    congruence.
Qed.
Print Assumptions C83_rng.

Example C83_satisfiable :
  (exists l, left_behind e64 (CXChaCha 10 ks32 (firstn 24 ks32)) = Ok l
     /\ bytes_of_words (firstn 8 (skipn 4 (iter_n 10 undo_double_round (look "state" l)))) = ks32)
  /\ (exists l, left_behind e64 (CXSalsa 10 ks32 (firstn 24 ks32)) = Ok l
     /\ (let st := iter_n 10 undo_s_double_round (look "state" l) in bytes_of_words (firstn 4 (skipn 1 st) ++ firstn 4 (skipn 11 st))) = ks32)
  /\ (exists l, left_behind e64 (CRabbit (firstn 16 ks32) (firstn 8 ks32)) = Ok l /\ look "key" l = firstn 16 ks32).
Proof.
  assert (O32 : octets 32 ks32) by (apply octets_check; vm_compute; reflexivity).
  assert (O24 : octets 24 (firstn 24 ks32)) by (apply octets_check; vm_compute; reflexivity).
  assert (O16 : octets 16 (firstn 16 ks32)) by (apply octets_check; vm_compute; reflexivity).
  assert (O8 : octets 8 (firstn 8 ks32)) by (apply octets_check; vm_compute; reflexivity).
  assert (He : env_ok e64) by (right; right; reflexivity).
  split; [|split].
  - destruct (C83_total_partial e64 (CXChaCha 10 ks32 (firstn 24 ks32)) He (conj O32 O24)) as (l & E & _).
    exists l. split; [exact E|]. apply (recover_ok e64 (CXChaCha 10 ks32 (firstn 24 ks32)) l He (conj O32 O24) eq_refl E).
  - destruct (C83_total_partial e64 (CXSalsa 10 ks32 (firstn 24 ks32)) He (conj O32 O24)) as (l & E & _).
    exists l. split; [exact E|]. apply (recover_ok e64 (CXSalsa 10 ks32 (firstn 24 ks32)) l He (conj O32 O24) eq_refl E).
  - destruct (C83_total_partial e64 (CRabbit (firstn 16 ks32) (firstn 8 ks32)) He (conj O16 O8)) as (l & E & _).
    exists l. split; [exact E|]. apply (C83_content e64 (CRabbit (firstn 16 ks32) (firstn 8 ks32)) He (conj O16 O8) l E).
Qed.
