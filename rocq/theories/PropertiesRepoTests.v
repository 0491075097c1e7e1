(** Final theorems C69: the tests of the repository, in every environment.

    Each [#[test]] of [/repo] is restated about the model and proved for every build
    configuration, CPU, [usize] width and overflow-check setting [e] (the tests themselves
    run in one), and for every way of cutting the buffer where the test tries some.  The
    constants are those of [RepoVectors]; [eval_run_ok]/[eval_rng_ok] reduce a test to an
    evaluation of the specification. *)
From Verif Require Import Word Res PropCommon SpecStream SpecChaCha SpecRng ChaChaCore ChaChaDispatch XChaCha Salsa Ciphers CiphersProofs StreamLemmas
  BlockRng ChaChaRng RngProofs PropertiesChaCha PropertiesStream PropertiesRng PropertiesRngExact PropertiesInterop Fast RepoVectors.
From Coq Require Import ZArith Lia ZifyBool ZifyNat ZifyN.

(** ** How a test is checked *)
Fixpoint list_eqb (a b : list N) : bool :=
  match a, b with [], [] => true | x :: a, y :: b => (x =? y) && list_eqb a b | _, _ => false end.
Lemma list_eqb_ok a : forall b, list_eqb a b = true -> a = b.
Proof.
  induction a as [|x a IH]; intros [|y b] H; try discriminate H; [reflexivity|]. cbn [list_eqb] in H.
  apply andb_prop in H. destruct H as [E H]. apply N.eqb_eq in E. subst. f_equal. apply IH, H.
Qed.
Ltac runs := rewrite eval_run_ok by (first [assumption | vm_compute; reflexivity]); vm_compute; reflexivity.

(** A message of fewer than 2^16 bytes cut in any way: the macro [stream_cipher_test!] and the
    tests of [rabbit] and [hc-256] try the cuts into equal pieces. *)
Definition any_cut (e : env) (c : cipher) (m ct : list N) : Prop :=
  forall chunks, concat chunks = m ->
  exists outs, cipher_run e c (map Apply chunks) = Ok (map Bytes outs)
  /\ map (@length N) outs = map (@length N) chunks /\ concat outs = ct.
Lemma in_concat_len (chunks : list (list N)) d : In d chunks -> (length d <= length (concat chunks))%nat.
Proof.
  induction chunks as [|x l IH]; intros H; [destruct H|]. cbn [concat]. rewrite app_length. destruct H as [->|H]; [lia|]. apply IH in H. lia.
Qed.
Definition cut_check (c : cipher) (m ct : list N) : bool :=
  cipher_okb c && (N.of_nat (length m) <? 65536) && list_eqb (f_xor (f_range c) 0 m) ct.
Lemma cut_ok e c m ct : env_ok e -> cut_check c m ct = true -> any_cut e c m ct.
Proof.
  intros He H chunks Hm. unfold cut_check in H. apply andb_prop in H. destruct H as [H Hx]. apply andb_prop in H. destruct H as [Hc Hl].
  apply cipher_okb_ok in Hc. apply N.ltb_lt in Hl. apply list_eqb_ok in Hx.
  assert (Hp : 65536 <= 2 ^ e_usz e) by (destruct He as [-> | [-> | ->]]; vm_compute; discriminate).
  destruct (C13_chunking e c chunks He Hc) as (outs & E1 & E2 & E3).
  - apply Forall_forall. intros d Hd. unfold short. pose proof (in_concat_len chunks d Hd). rewrite Hm in *. lia.
  - rewrite Hm. unfold fits. destruct c as [[] | | | | | | | ]; cbn [last_byte]; try exact I; lia.
  - exists outs. split; [exact E1|]. split; [exact E2|]. rewrite E3, Hm. unfold xored.
    etransitivity; [|exact Hx]. symmetry. apply f_xor_ok. intros; apply f_range_ok, Hc.
Qed.

(** ** [chacha20/tests/kats.rs] *)
(** [chacha20_keystream], [chacha20_encryption] :72-97 *)
Theorem C69_chacha20 e : env_ok e ->
  exists prefix,
  cipher_run e (CChaCha Ietf 10 chacha_KEY chacha_IV) [Apply (repeat 0 64); Apply (repeat 0 114)] = Ok [Bytes prefix; Bytes chacha_KEYSTREAM]
  /\ cipher_run e (CChaCha Ietf 10 chacha_KEY chacha_IV) [Apply (repeat 0 64); Apply chacha_PLAINTEXT] = Ok [Bytes prefix; Bytes chacha_CIPHERTEXT].
Proof. intros He. exists (f_range (CChaCha Ietf 10 chacha_KEY chacha_IV) 0 64). split; runs. Qed.
(** [xchacha20_keystream], [xchacha20_encryption] :160-186 *)
Theorem C69_xchacha20 e : env_ok e ->
  exists prefix,
  cipher_run e (CXChaCha 10 xchacha_KEY xchacha_IV) [Apply (repeat 0 64); Apply (repeat 0 304)] = Ok [Bytes prefix; Bytes xchacha_KEYSTREAM]
  /\ cipher_run e (CXChaCha 10 xchacha_KEY xchacha_IV) [Apply (repeat 0 64); Apply xchacha_PLAINTEXT] = Ok [Bytes prefix; Bytes xchacha_CIPHERTEXT].
Proof. intros He. exists (f_range (CXChaCha 10 xchacha_KEY xchacha_IV) 0 64). split; runs. Qed.
(** [hchacha20_tests::test_vector] [chacha20/src/xchacha.rs:162-178] *)
Theorem C69_hchacha20 : hchacha 10 hchacha_KEY hchacha_INPUT = hchacha_OUTPUT.
Proof. rewrite C12_hchacha by checks. rewrite <- f_hchacha_ok. vm_compute. reflexivity. Qed.
(** [chacha20_core] :13, [chacha20_legacy_core] :195 ([stream_cipher_test!] on the two blobs) *)
Theorem C69_blobs e : env_ok e ->
  Forall (fun t => match t with (key, iv, pt, ct) => any_cut e (CChaCha Ietf 10 key iv) pt ct end) chacha20_blb
  /\ Forall (fun t => match t with (key, iv, pt, ct) => any_cut e (CChaCha Legacy 10 key iv) pt ct end) chacha20_legacy_blb.
Proof.
  intros He. split; apply Forall_forall; intros [[[key iv] pt] ct] H; apply cut_ok; try exact He.
  - assert (K : forallb (fun t => match t with (key, iv, pt, ct) => cut_check (CChaCha Ietf 10 key iv) pt ct end) chacha20_blb = true) by (vm_compute; reflexivity).
    rewrite forallb_forall in K. exact (K _ H).
  - assert (K : forallb (fun t => match t with (key, iv, pt, ct) => cut_check (CChaCha Legacy 10 key iv) pt ct end) chacha20_legacy_blb = true) by (vm_compute; reflexivity).
    rewrite forallb_forall in K. exact (K _ H).
Qed.

(** The [#[ignore]]d tests: all 2.8 million cuts. *)
Definition piece (l : list N) (a b : nat) : list N := firstn (b - a) (skipn a l).
Definition offsets (e : env) (c : cipher) (expected : list N) : Prop :=
  forall idx middle last, (idx <= middle)%nat -> (middle <= last)%nat -> (last <= length expected)%nat ->
  cipher_run e c [Seek (N.of_nat idx); Apply (repeat 0 (middle - idx)); Apply (repeat 0 (last - middle))]
  = Ok [Done; Bytes (piece expected idx middle); Bytes (piece expected middle last)].
Lemma range_piece ks L n : L = ks_range ks 0 n -> forall p k, (p + k <= n)%nat -> ks_range ks (N.of_nat p) k = firstn k (skipn p L).
Proof.
  intros -> p k H. unfold ks_range. apply (nth_ext _ _ 0 0).
  - rewrite firstn_length, skipn_length, !map_length, !seq_length. lia.
  - intros j Hj. rewrite map_length, seq_length in Hj. rewrite nth_firstn_skipn by exact Hj.
    rewrite (nth_indep (map _ _) 0 ((fun i => ks (N.of_nat p + N.of_nat i)) 0%nat)) by (rewrite map_length, seq_length; exact Hj).
    rewrite (map_nth (fun i => ks (N.of_nat p + N.of_nat i)) (seq 0 k) 0%nat j), seq_nth by exact Hj.
    rewrite (nth_indep (map _ (seq 0 n)) 0 ((fun i => ks (0 + N.of_nat i)) 0%nat)) by (rewrite map_length, seq_length; lia).
    rewrite (map_nth (fun i => ks (0 + N.of_nat i)) (seq 0 n) 0%nat (p + j)%nat), seq_nth by lia. f_equal. lia.
Qed.
Lemma offsets_ok e c L expected : env_ok e -> cipher_okb c = true -> last_byte c = Some L -> N.of_nat (length expected) < 65536 ->
  65536 <= L -> expected = f_range c 0 (length expected) -> offsets e c expected.
Proof.
  intros He Hc HL Hn HL2 HE idx middle last H1 H2 H3. apply cipher_okb_ok in Hc.
  assert (Hp : 65536 <= 2 ^ e_usz e) by (destruct He as [-> | [-> | ->]]; vm_compute; discriminate).
  rewrite f_range_ok in HE by exact Hc.
  rewrite cipher_run_ok; [|assumption|assumption|].
  - destruct (last_some c L HL) as (l & El & EL). destruct (last_lim c l El) as (_ & Hb & Hbs). rewrite El. cbn [run_spec step_spec].
    rewrite !repeat_length.
    assert (Hu : l_usable l = L) by (symmetry; exact EL). unfold l_usable in *. rewrite Hbs in *.
    assert (Hd : N.of_nat idx / 64 < l_blocks l) by lia.
    destruct (N.ltb_spec (N.of_nat idx / 64) (l_blocks l)) as [_|X]; [|lia].
    destruct (N.ltb_spec (64 * (l_blocks l - 1)) (N.of_nat idx)) as [X|_]; [lia|]. rewrite andb_false_r.
    assert (Hg : forall p n, p + N.of_nat n <= L -> granted l p (N.of_nat n) = true).
    { intros p n Hpn. apply granted_small; [assumption|assumption|]. unfold l_usable. rewrite Hbs, Hu. exact Hpn. }
    rewrite Hg by lia. cbn [expect run_spec step_spec]. rewrite Hg by lia. cbn [expect]. rewrite !ks_xor_zeros.
    unfold piece. rewrite (range_piece _ _ _ HE) by lia. replace (N.of_nat idx + N.of_nat (middle - idx)) with (N.of_nat middle) by lia.
    rewrite (range_piece _ _ _ HE) by lia. reflexivity.
  - repeat constructor; cbn [call_ok]; rewrite repeat_length; lia.
Qed.
(** [legacy::chacha20_offsets] :215-235 *)
Theorem C69_chacha20_offsets e : env_ok e -> offsets e (CChaCha Legacy 10 legacy_KEY_LONG legacy_IV_LONG) legacy_EXPECTED_LONG.
Proof. intros He. eapply offsets_ok; [exact He|vm_compute; reflexivity|reflexivity|reflexivity|discriminate|]. vm_compute. reflexivity. Qed.

(** ** [salsa20/tests] *)
(** [salsa20_key1_iv0] to [salsa20_long] :90-137, [xsalsa20_encrypt_zeros], [xsalsa20_encrypt_hello_world] :159-178 *)
Theorem C69_salsa20 e : env_ok e ->
  cipher_run e (CSalsa 10 salsa_KEY1 IV0) [Apply (repeat 0 64)] = Ok [Bytes salsa_EXPECTED_KEY1_IV0]
  /\ cipher_run e (CSalsa 10 KEY0 salsa_IV1) [Apply (repeat 0 64)] = Ok [Bytes salsa_EXPECTED_KEY0_IV1]
  /\ cipher_run e (CSalsa 10 KEY0 salsa_IVHI) [Apply (repeat 0 64)] = Ok [Bytes salsa_EXPECTED_KEY0_IVHI]
  /\ cipher_run e (CSalsa 10 salsa_KEY_LONG salsa_IV_LONG) [Apply (repeat 0 256)] = Ok [Bytes salsa_EXPECTED_LONG]
  /\ cipher_run e (CXSalsa 10 salsa_KEY_XSALSA20 salsa_IV_XSALSA20) [Apply (repeat 0 64)] = Ok [Bytes salsa_EXPECTED_XSALSA20_ZEROS]
  /\ cipher_run e (CXSalsa 10 salsa_KEY_XSALSA20 salsa_IV_XSALSA20) [Apply salsa_HELLO] = Ok [Bytes salsa_EXPECTED_XSALSA20_HELLO_WORLD].
Proof. intros He. repeat match goal with |- _ /\ _ => split end; runs. Qed.
(** [salsa20_offsets] :139-157 *)
Theorem C69_salsa20_offsets e : env_ok e -> offsets e (CSalsa 10 salsa_KEY_LONG salsa_IV_LONG) salsa_EXPECTED_LONG.
Proof. intros He. eapply offsets_ok; [exact He|vm_compute; reflexivity|reflexivity|reflexivity|discriminate|]. vm_compute. reflexivity. Qed.
(** [salsa20_big_offset] :180-205 *)
Theorem C69_salsa20_big_offset e : env_ok e ->
  exists buf, length buf = 1000%nat /\
  cipher_run e (CSalsa 10 salsa_KEY1 salsa_IV1)
    [Seek (2 ^ 40 - 500); Write 1000; CurPos (2 ^ 64); Seek (2 ^ 40); Write 500; Seek (2 ^ 40 - 500); Write 500; CurPos (2 ^ 64)]
  = Ok [Done; Bytes buf; Pos (2 ^ 40 + 500); Done; Bytes (skipn 500 buf); Done; Bytes (firstn 500 buf); Pos (2 ^ 40)].
Proof. intros He. exists (f_range (CSalsa 10 salsa_KEY1 salsa_IV1) (2 ^ 40 - 500) 1000). split; [vm_compute; reflexivity|runs]. Qed.
(** [salsa20_regression_2024_03] :207-234: the core itself, 8 rounds. *)
Theorem C69_salsa_raw ck : exists st, salsa_gen_ks_block ck 4 (from_raw_state regression_t2) = Ok (regression_out, st).
Proof. destruct ck; eexists; vm_compute; reflexivity. Qed.
(** [ecrypt.rs]: all 412 vectors. *)
Theorem C69_ecrypt e : env_ok e ->
  Forall (fun t => match t with (key, iv, pos, expected) =>
    cipher_run e (CSalsa 10 (be 32 key) (be 8 iv)) [Seek pos; Apply (repeat 0 64)] = Ok [Done; Bytes (be 64 expected)] end) ecrypt_blb.
Proof.
  intros He. apply Forall_forall. intros [[[key iv] pos] expected] H.
  assert (K : forallb (fun t => match t with (key, iv, pos, expected) =>
      let c := CSalsa 10 (be 32 key) (be 8 iv) in
      cipher_okb c && match eval_run c true [Seek pos; Apply (repeat 0 64)] with Ok [Done; Bytes o] => list_eqb o (be 64 expected) | _ => false end end)
    ecrypt_blb = true) by (vm_compute; reflexivity).
  rewrite forallb_forall in K. specialize (K _ H). cbv beta iota zeta in K. apply andb_prop in K. destruct K as [Kc K].
  rewrite eval_run_ok by (first [assumption | vm_compute; reflexivity]).
  assert (E : forall s r, eval_run (CSalsa 10 (be 32 key) (be 8 iv)) true [Seek pos; Apply (repeat 0 64)] = Ok r ->
              eval_run (CSalsa 10 (be 32 key) (be 8 iv)) s [Seek pos; Apply (repeat 0 64)] = Ok r).
  { intros s r. unfold eval_run. cbn [run_with step_with cipher_lim]. destruct (_ <? _); [|auto]. destruct (_ <? pos); cbn [andb]; [discriminate|auto]. }
  destruct (eval_run (CSalsa 10 (be 32 key) (be 8 iv)) true _) as [[|[] [|[] [|]]]|]; try discriminate K.
  apply list_eqb_ok in K. subst l. apply E. reflexivity.
Qed.

(** ** [rabbit/tests/mod.rs]: decrypting the expected keystream gives zeros, however cut *)
Theorem C69_rabbit e : env_ok e ->
  Forall (fun t => any_cut e (CRabbitKeyOnly (fst t)) (snd t) (repeat 0 48)) rabbit_key_only_tests
  /\ Forall (fun t => any_cut e (CRabbit rabbit_key (fst t)) (snd t) (repeat 0 48)) rabbit_key_iv_tests.
Proof. intros He. split; repeat constructor; apply cut_ok; try exact He; vm_compute; reflexivity. Qed.

(** ** [hc-256/tests/mod.rs] *)
Theorem C69_hc256 e : env_ok e ->
  any_cut e (CHc256 hc_KEY0 hc_IV0) hc_EXPECTED_KEY0_IV0 (repeat 0 64)
  /\ any_cut e (CHc256 hc_KEY0 hc_IV1) hc_EXPECTED_KEY0_IV1 (repeat 0 64)
  /\ any_cut e (CHc256 hc_KEY1 hc_IV0) hc_EXPECTED_KEY1_IV0 (repeat 0 64).
Proof. intros He. split; [|split]; apply cut_ok; try exact He; vm_compute; reflexivity. Qed.

(** ** [rc4/tests/lib.rs]: RFC 6229, all 14 keys *)
Theorem C69_rc4 e : env_ok e ->
  Forall (fun t => exists data, cipher_run e (CRc4 (fst t)) [Write 4112] = Ok [Bytes data]
    /\ forall i, (i < 18)%nat -> piece data (N.to_nat (nth i rc4_OFFSETS 0)) (N.to_nat (nth i rc4_OFFSETS 0) + 16) = piece (snd t) (16 * i) (16 * i + 16)) rfc6229.
Proof.
  intros He. apply Forall_forall. intros [key ks] H. cbn [fst snd].
  assert (K : forallb (fun t => cipher_okb (CRc4 (fst t)) &&
      let data := f_rc4_bytes (fst t) 4112 in
      forallb (fun i => list_eqb (firstn 16 (skipn (N.to_nat (nth i rc4_OFFSETS 0)) data)) (firstn 16 (skipn (16 * i) (snd t)))) (seq 0 18)) rfc6229 = true)
    by (vm_compute; reflexivity).
  rewrite forallb_forall in K. specialize (K _ H). cbn [fst snd] in K. apply andb_prop in K. destruct K as [Kc K].
  exists (f_rc4_bytes key 4112). split.
  - rewrite eval_run_ok by (first [assumption | vm_compute; reflexivity]). reflexivity.
  - intros i Hi. unfold piece. rewrite !Nat.add_sub_swap, !Nat.sub_diag by lia. cbn [Nat.add]. apply list_eqb_ok.
    cbv zeta in K. rewrite forallb_forall in K. apply (K i). apply in_seq. lia.
Qed.

(** ** [chacha20/tests/rng.rs] *)
(** In every build, on every CPU, with and without overflow checks. *)
Definition answers (n : nat) (seed : list N) (h : list rop) (xs : list rret) : Prop :=
  forall c p ck, exists r r', rng_from_seed seed = Ok r /\ rng_run (rng_gen c p n) ck r h = Ok (xs, r').
Ltac draws := intros c p ck; apply eval_rng_ok; vm_compute; reflexivity.
Definition run20 (seed : list N) (h : list rop) : list rret := match f_checked 10 (fresh seed) None 0 h with Some xs => xs | None => [] end.
(** [test_rng_output] :15-27, [test_chacha_true_bytes] :173-181 *)
Theorem C69_rng_bytes :
  answers 10 rng_KEY [Fill 13; Fill 13] [Buf rng_output_1; Buf rng_output_2]
  /\ answers 10 (repeat 0 32) [Fill 32] [Buf true_bytes].
Proof. split; draws. Qed.
(** [test_chacha_true_values_a], [_b] :29-80 *)
Theorem C69_rng_true_values :
  answers 10 (repeat 0 32) (repeat NextU32 32) (map Num (true_values_a1 ++ true_values_a2))
  /\ exists block0, length block0 = 16%nat /\ answers 10 seed_b (repeat NextU32 32) (block0 ++ map Num true_values_b).
Proof.
  split; [draws|]. exists (firstn 16 (run20 seed_b (repeat NextU32 16))). split; [vm_compute; reflexivity|]. draws.
Qed.
(** [test_chacha_true_values_c] :82-149: block 2 reached in four ways, and the skipping *)
Theorem C69_rng_true_values_c :
  (exists skipped, length skipped = 32%nat /\
     answers 10 seed_c (repeat NextU32 48 ++ [GetWordPos]) (skipped ++ map Num true_values_c ++ [Num 48]))
  /\ (exists b1 b2 x1 x2 x3 b3, answers 10 seed_c
        (SetWordPos 32 :: repeat NextU32 16 ++
         [GetWordPos; Fill 32; GetWordPos; Fill 25; GetWordPos; NextU64; GetWordPos; NextU32; NextU64; GetWordPos; Fill 1; GetWordPos])
        (Unit :: map Num true_values_c ++
         [Num 48; Buf b1; Num (48 + 8); Buf b2; Num (48 + 15); Num x1; Num (48 + 17); Num x2; Num x3; Num (48 + 20); Buf b3; Num (48 + 21)]))
  /\ answers 10 seed_c (SetBlockPos 2 :: repeat NextU32 16 ++ [GetWordPos]) (Unit :: map Num true_values_c ++ [Num 48])
  /\ answers 10 seed_c (SetBlockPos 2 :: repeat (Fill 8) 8 ++ [GetWordPos])
       (Unit :: map (fun i => Buf (rg_le 4 (nth (2 * i) true_values_c 0) ++ rg_le 4 (nth (2 * i + 1) true_values_c 0))) (seq 0 8) ++ [Num 48]).
Proof.
  split; [|split; [|split]].
  - exists (run20 seed_c (repeat NextU32 32)). split; [vm_compute; reflexivity|]. draws.
  - set (l := run20 seed_c [SetWordPos 48; Fill 32; Fill 25; NextU64; NextU32; NextU64; Fill 1]). vm_compute in l.
    match eval unfold l in l with [_; Buf ?b1; Buf ?b2; Num ?x1; Num ?x2; Num ?x3; Buf ?b3] => exists b1, b2, x1, x2, x3, b3 end. clear l. draws.
  - draws.
  - draws.
Qed.
(** [test_chacha_multiple_blocks] :151-171 *)
Theorem C69_rng_multiple_blocks : exists xs, answers 10 seed_multiple (repeat NextU32 272) xs
  /\ map (fun i => nth (17 * i) xs Unit) (seq 0 16) = map Num multiple_blocks.
Proof. exists (run20 seed_multiple (repeat NextU32 272)). split; [draws|]. vm_compute. reflexivity. Qed.
(** [test_chacha_construction] :183-193; [SeedableRng::from_rng] fills the seed of the new
    generator from the old one. *)
Theorem C69_rng_construction : exists seed2,
  answers 10 seed_construction [NextU32; GetSeed; Fill 32] [Num 137206642; Buf seed_construction; Buf seed2]
  /\ answers 10 seed2 [NextU32] [Num 1325750369].
Proof.
  exists (match run20 seed_construction [NextU32; Fill 32] with [_; Buf s] => s | _ => [] end). split; draws.
Qed.
(** [test_chacha_nonce], [test_chacha_nonce_2] :195-245 *)
Theorem C69_rng_nonce :
  (exists discarded, length discarded = 64%nat /\
     answers 10 seed_nonce (SetStream 0x000000004a000000 :: SetBlockPos (rg_int (be 8 0x0000000000000009)) :: Fill 64 :: repeat NextU32 16)
       (Unit :: Unit :: Buf discarded :: map Num nonce_1))
  /\ answers 10 (repeat 0 32) (SetStream (2 * 2 ^ (24 + 32)) :: repeat NextU32 16) (Unit :: map Num nonce_2).
Proof.
  split; [|draws].
  exists (match run20 seed_nonce [SetStream 0x000000004a000000; SetBlockPos (rg_int (be 8 0x0000000000000009)); Fill 64] with [_; _; Buf s] => s | _ => [] end).
  split; [vm_compute; reflexivity|]. draws.
Qed.
(** [counter_wrap_1] :247-268, [counter_overflow_and_diagnostics] :290-335 *)
Theorem C69_rng_counter :
  answers 10 (repeat 0 32) [SetBlockPos (2 ^ 64 - 1); Fill (64 * 3)] [Unit; Buf counter_wrap]
  /\ exists skipped, answers 10 (repeat 0 32) [SetBlockPos 4294967295; Fill (64 * 3); SetBlockPos (4294967295 - 1); Fill (64 * 3); Fill 64]
       [Unit; Buf (block_before_overflow ++ first_block_after_overflow ++ second_block_after_overflow); Unit; Buf skipped; Buf second_block_after_overflow].
Proof.
  split; [draws|].
  exists (match run20 (repeat 0 32) [SetBlockPos (4294967295 - 1); Fill 192] with [_; Buf s] => s | _ => [] end). draws.
Qed.
(** [test_wrapping_add] :337-349 *)
Theorem C69_rng_wrapping_add : exists out w, answers 10 rng_KEY [SetWordPos (2 ^ 68 - 65); Fill 1280; GetWordPos] [Unit; Buf out; Num w]
  /\ out <> repeat 0 1280 /\ w < 2000 /\ w <> 0.
Proof.
  exists (match run20 rng_KEY [SetWordPos (2 ^ 68 - 65); Fill 1280] with [_; Buf s] => s | _ => [] end), 255.
  split; [draws|]. split; [|split; [reflexivity|discriminate]]. intros H. apply (f_equal (hd 0)) in H. vm_compute in H. discriminate H.
Qed.
(** [test_chacha_clone_streams] :351-383 *)
Definition different {A} (a b : list A) : Prop := forall i x y, nth_error a i = Some x -> nth_error b i = Some y -> x <> y.
Theorem C69_rng_clone_streams : exists s f1 f2 a1 a2 b1 b2 t,
  answers 10 seed_multiple (repeat NextU64 16 ++ [SetStream 51; GetStream; Fill 7] ++ repeat NextU64 7 ++ repeat NextU64 9 ++ SetStream 51 :: repeat NextU64 16)
    (s ++ [Unit; Num 51; Buf f1] ++ a1 ++ b1 ++ Unit :: t)
  /\ answers 10 seed_multiple (repeat NextU64 16 ++ [GetStream; Fill 7] ++ repeat NextU64 7 ++ SetStream 51 :: repeat NextU64 9 ++ SetStream 51 :: repeat NextU64 16)
    (s ++ [Num 0; Buf f2] ++ a2 ++ Unit :: b2 ++ Unit :: t)
  /\ length s = 16%nat /\ length a1 = 7%nat /\ length a2 = 7%nat /\ length b1 = 9%nat /\ length b2 = 9%nat /\ length t = 16%nat
  /\ f1 <> f2 /\ different a1 a2 /\ different b1 b2.
Proof.
  set (l1 := run20 seed_multiple (repeat NextU64 16 ++ [SetStream 51; GetStream; Fill 7] ++ repeat NextU64 7 ++ repeat NextU64 9)).
  set (l2 := run20 seed_multiple (repeat NextU64 16 ++ [GetStream; Fill 7] ++ repeat NextU64 7 ++ SetStream 51 :: repeat NextU64 9)).
  set (l3 := run20 seed_multiple (SetStream 51 :: repeat NextU64 16)).
  exists (firstn 16 l1), (match nth 18 l1 Unit with Buf f => f | _ => [] end), (match nth 17 l2 Unit with Buf f => f | _ => [] end),
    (firstn 7 (skipn 19 l1)), (firstn 7 (skipn 18 l2)), (skipn 26 l1), (skipn 26 l2), (skipn 1 l3).
  vm_compute in l1, l2, l3.
  split; [subst l1 l2 l3; draws|]. split; [subst l1 l2 l3; draws|].
  repeat (split; [subst l1 l2 l3; reflexivity|]).
  split; [subst l1 l2 l3; vm_compute; discriminate|].
  split; intros i x y Hx Hy; subst l1 l2 l3; cbn [firstn skipn] in *;
    do 9 (destruct i as [|i]; cbn [nth_error] in *; [injection Hx as <-; injection Hy as <-; discriminate|]; try (destruct i; discriminate Hx)).
Qed.
(** [test_chacha_word_pos_wrap_exact], [_excess], [_zero] :385-410 *)
Theorem C69_rng_word_pos :
  answers 10 (repeat 0 32) [SetWordPos (2 ^ 68 - 4 * 16); GetWordPos] [Unit; Num (2 ^ 68 - 4 * 16)]
  /\ answers 10 (repeat 0 32) [SetWordPos (2 ^ 68 - 16); GetWordPos] [Unit; Num (2 ^ 68 - 16)]
  /\ answers 10 (repeat 0 32) [GetWordPos; SetWordPos 0; GetWordPos] [Num 0; Unit; Num 0].
Proof. split; [|split]; draws. Qed.
(** [test_trait_objects] :412-424: any seed, any calls, and the two generators may even come
    from different builds. *)
Theorem C69_rng_trait_objects n c p c' p' ck ck' seed h : octets 32 seed -> Forall rop_ok h -> no_gbp h ->
  exists r xs r1 r2, rng_from_seed seed = Ok r
  /\ rng_run (rng_gen c p n) ck r h = Ok (xs, r1) /\ rng_run (rng_gen c' p' n) ck' r h = Ok (xs, r2).
Proof.
  intros Hs Hok Hn. destruct (C21_history n c p ck seed h Hs Hok (or_intror Hn)) as (r & r1 & E & E1).
  destruct (C21_history n c' p' ck' seed h Hs Hok (or_intror Hn)) as (r' & r2 & E' & E2). rewrite E in E'. injection E' as <-. eauto 8.
Qed.
(** [counter_wrapping_64_bit_counter], [counter_not_wrapping_at_32_bits] :426-471 *)
Theorem C69_rng_counter_width : exists first b0 result,
  answers 10 (repeat 0 32) [Fill (64 * 4); GetWordPos; GetBlockPos; SetBlockPos (2 ^ 64 - 1); Fill (64 * 5); GetWordPos; GetBlockPos]
    [Buf first; Num 64; Num 4; Unit; Buf (b0 ++ first); Num 64; Num 4]
  /\ length b0 = 64%nat
  /\ answers 10 (repeat 0 32) [Fill (64 * 4); GetWordPos; SetBlockPos (2 ^ 32 - 1); Fill (64 * 5); GetWordPos]
    [Buf first; Num 64; Unit; Buf result; Num (64 + 2 ^ 32 * 16)]
  /\ first <> skipn 64 result.
Proof.
  set (l := run20 (repeat 0 32) [Fill 256; SetBlockPos (2 ^ 64 - 1); Fill 64; SetBlockPos (2 ^ 32 - 1); Fill 320]). vm_compute in l.
  exists (match nth 0 l Unit with Buf f => f | _ => [] end), (match nth 2 l Unit with Buf f => f | _ => [] end), (match nth 4 l Unit with Buf f => f | _ => [] end).
  split; [subst l; draws|]. split; [subst l; reflexivity|]. split; [subst l; draws|].
  intros H. apply (f_equal (hd 0)) in H. subst l. vm_compute in H. discriminate H.
Qed.
(** [test_chacha8rng_serde_roundtrip] and the like :473-519: after any calls, any calls. *)
Theorem C69_rng_serde n c p ck seed before after r xs r1 : octets 32 seed -> Forall rop_ok before -> Forall rop_ok after -> no_gbp after ->
  rng_from_seed seed = Ok r -> rng_run (rng_gen c p n) ck r before = Ok (xs, r1) ->
  exists state r2 ys r1' r2', serialize_state ck r1 = Ok state /\ deserialize_state (rng_gen c p n) state = Ok r2
  /\ rng_run (rng_gen c p n) ck r1 after = Ok (ys, r1') /\ rng_run (rng_gen c p n) ck r2 after = Ok (ys, r2').
Proof.
  intros Hs Hb Ha Hn E E1. assert (H : reachable n r1) by (eapply reach_run; [eapply R_seed; eassumption|exact Hb|exact E1]).
  destruct (C29_round_trip n c p c p ck ck r1 H) as (a & r2 & E2 & E3 & _ & HF).
  destruct (HF after Ha (or_intror Hn)) as (ys & r1' & r2' & E4 & E5 & _). exists a, r2, ys, r1', r2'. auto.
Qed.
(** [test_rng_serialized_state_stability] :521-552 *)
Theorem C69_rng_serialized n : In n [4; 6; 10]%nat -> exists drawn, length drawn = 100%nat /\
  answers n rng_KEY (SetStream rng_STREAM :: repeat NextU32 100 ++ [Serialize]) (Unit :: drawn ++ [Buf serialized]).
Proof.
  intros H. exists (match f_checked n (fresh rng_KEY) None 0 (SetStream rng_STREAM :: repeat NextU32 100) with Some (_ :: l) => l | _ => [] end).
  cbn [In] in H. destruct H as [<-|[<-|[<-|[]]]]; (split; [vm_compute; reflexivity|draws]).
Qed.
(** ** [cipher::stream_cipher_seek_test!] ([chacha20/tests/kats.rs:14-19], [:106], [:196],
    [salsa20/tests/mod.rs:8-9])
    The macro's body is in the cipher crate; as we understand it, it compares a seek to every
    offset below 512 with the keystream from 0.  Every key, every nonce, every seekable type. *)
Theorem C69_seek e c L n t : env_ok e -> cipher_ok c -> last_byte c = Some L -> (n <= 512)%nat -> 512 < t ->
  cipher_run e c [Apply (repeat 0 512)] = Ok [Bytes (ks_range (cipher_ks c) 0 512)]
  /\ cipher_run e c [CurPos t; Seek (N.of_nat n); CurPos t; Apply (repeat 0 (512 - n)); CurPos t]
     = Ok [Pos 0; Done; Pos (N.of_nat n); Bytes (skipn n (ks_range (cipher_ks c) 0 512)); Pos 512].
Proof.
  intros He Hc HL Hn Ht.
  assert (HB : 512 <= L).
  { destruct c as [[]| | | | | | | ]; cbn [last_byte] in HL; try discriminate HL; injection HL as <-; discriminate. }
  assert (Hp : 65536 <= 2 ^ e_usz e) by (destruct He as [-> | [-> | ->]]; vm_compute; discriminate).
  assert (Hx : forall p k, xored c p (repeat 0 k) = ks_range (cipher_ks c) p k) by (intros; apply ks_xor_zeros).
  destruct (last_some c L HL) as (l & El & EL). destruct (last_lim c l El) as (_ & Hb & Hbs).
  split.
  - rewrite cipher_run_ok; [|assumption|assumption|repeat constructor; cbn [call_ok]; rewrite repeat_length; lia].
    rewrite El. cbn [run_spec step_spec]. rewrite repeat_length, granted_small; [|assumption|assumption|unfold l_usable in *; rewrite Hbs in *; lia].
    cbn [expect]. rewrite ks_xor_zeros. reflexivity.
  - assert (E0 : cipher_run e c [CurPos t] = Ok [Pos 0]).
    { rewrite cipher_run_ok; [|assumption|assumption|repeat constructor]. rewrite El. cbn [run_spec step_spec].
      assert (Hq : 0 mod l_period l = 0) by (apply N.mod_small; unfold l_period; rewrite Hbs; lia). rewrite Hq, Hbs.
      change ((0 + 64 - 1) / 64 * 64) with 0. destruct (N.leb_spec 0 (l_usable l)); [|lia]. destruct (N.ltb_spec 0 t); [|lia]. reflexivity. }
    change ([CurPos t; Seek (N.of_nat n); CurPos t; Apply (repeat 0 (512 - n)); CurPos t])
      with ([CurPos t] ++ [Seek (N.of_nat n); CurPos t; Apply (repeat 0 (512 - n)); CurPos t]).
    rewrite (C16_seek e c L [CurPos t] [Pos 0] (N.of_nat n) (repeat 0 (512 - n)) t He Hc HL); try assumption.
    + rewrite repeat_length, Hx. cbn [app]. replace (N.of_nat n + N.of_nat (512 - n)) with 512 by lia.
      rewrite (range_piece _ _ 512 eq_refl n (512 - n)) by lia. rewrite firstn_all2; [reflexivity|].
      unfold ks_range. rewrite skipn_length, map_length, seq_length. lia.
    + repeat constructor.
    + unfold short. rewrite repeat_length. lia.
    + rewrite repeat_length. lia.
    + rewrite repeat_length. replace (N.of_nat n + N.of_nat (512 - n)) with 512 by lia. exact Ht.
Qed.

(** ** The examples of the READMEs (run as documentation tests) *)
(** [chacha20/README.md:47-86], [salsa20/README.md:28-63]: encrypt, seek to 0, decrypt, seek to
    0, encrypt in chunks of three. *)
Definition readme_pt : list N := be 16 0x000102030405060708090A0B0C0D0E0F.
Definition readme_chacha20 : list N := be 16 0xe405626e4f1236b3670ee428332ea20e.
Definition readme_salsa20 : list N := be 16 0x85843cc5d58cce7b5dd3dd04fa005ded.
Definition readme_rabbit : list N := be 16 0x10298496ceda18ee0e257cbb1ab43bcc.
Definition readme_hc256 : list N := be 16 0xca982177325cd40ebc208045066c420f.
Definition chunks3 (l : list N) : list (list N) := map (fun i => piece l (3 * i) (3 * i + 3)) (seq 0 6).
Definition seek_example (e : env) (c : cipher) (pt ct : list N) : Prop :=
  cipher_run e c ([Apply pt; Seek 0; Apply ct; Seek 0] ++ map Apply (chunks3 pt)) = Ok ([Bytes ct; Done; Bytes pt; Done] ++ map Bytes (chunks3 ct)).
Theorem C69_readme_seek e : env_ok e ->
  seek_example e (CChaCha Ietf 10 (repeat 0x42 32) (repeat 0x24 12)) readme_pt readme_chacha20
  /\ seek_example e (CSalsa 10 (repeat 0x42 32) (repeat 0x24 8)) readme_pt readme_salsa20.
Proof. intros He. split; unfold seek_example; runs. Qed.
(** [rabbit/README.md:28-61], [hc-256/README.md:27-60]: a new cipher each time;
    [rc4/README.md:29-47]: "Key", "Wiki" and "Secret". *)
Theorem C69_readme e : env_ok e ->
  (any_cut e (CRabbit (repeat 0x42 16) (repeat 0x24 8)) readme_pt readme_rabbit
   /\ any_cut e (CRabbit (repeat 0x42 16) (repeat 0x24 8)) readme_rabbit readme_pt)
  /\ (any_cut e (CHc256 (repeat 0x42 32) (repeat 0x24 32)) readme_pt readme_hc256
      /\ any_cut e (CHc256 (repeat 0x42 32) (repeat 0x24 32)) readme_hc256 readme_pt)
  /\ any_cut e (CRc4 (be 3 0x4b6579)) (be 9 0x506c61696e74657874) (be 9 0xBBF316E8D940AF0AD3)
  /\ any_cut e (CRc4 (be 4 0x57696b69)) (be 5 0x7065646961) (be 5 0x1021BF0420)
  /\ any_cut e (CRc4 (be 6 0x536563726574)) (be 14 0x41747461636b206174206461776e) (be 14 0x45A01F645FC35B383552544B9BF5).
Proof. intros He. repeat match goal with |- _ /\ _ => split end; apply cut_ok; try exact He; vm_compute; reflexivity. Qed.

(** The environments and ciphers of the hypotheses. *)
Example C69_satisfiable : env_ok ex_env /\ octets 32 rng_KEY /\ last_byte (CChaCha Ietf 10 KEY0 (repeat 0 12)) = Some (64 * (2 ^ 32 - 1))
  /\ cipher_ok (CChaCha Ietf 10 KEY0 (repeat 0 12)) /\ length ecrypt_blb = 412%nat /\ length rfc6229 = 14%nat
  /\ no_gbp [NextU32; Fill 7; SetStream 3] /\ Forall rop_ok [NextU32; Fill 7; SetStream 3].
Proof.
  split; [right; right; reflexivity|]. split; [apply octets_b_ok; reflexivity|]. split; [reflexivity|].
  split; [apply cipher_okb_ok; reflexivity|]. split; [reflexivity|]. split; [reflexivity|]. split; repeat constructor; discriminate.
Qed.

Definition C69_all := (C69_chacha20, C69_xchacha20, C69_hchacha20, C69_blobs, C69_chacha20_offsets, C69_salsa20, C69_salsa20_offsets,
  C69_salsa20_big_offset, C69_salsa_raw, C69_ecrypt, C69_rabbit, C69_hc256, C69_rc4, C69_rng_bytes, C69_rng_true_values, C69_rng_true_values_c,
  C69_rng_multiple_blocks, C69_rng_construction, C69_rng_nonce, C69_rng_counter, C69_rng_wrapping_add, C69_rng_clone_streams,
  C69_rng_word_pos, C69_rng_trait_objects, C69_rng_counter_width, C69_rng_serde, C69_rng_serialized, C69_seek,
  C69_readme_seek, C69_readme).
Print Assumptions C69_all.
