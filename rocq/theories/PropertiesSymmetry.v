(** C68: rotating the four columns of a state rotates the columns of ChaCha's block;
    shifting a state along its diagonals shifts Salsa's block, which
    [SalsaCore::from_raw_state] makes observable.  The four distinct constants keep the
    states of the ciphers and generators out of these relations. *)
From Verif Require Import Word WordLemmas Res ChaChaCore ChaChaBackend ChaChaSoft ChaChaProofs ChaChaDispatchProofs Salsa SpecSalsa SalsaProofs PropCommon.
From Coq Require Import ZArith Lia ZifyBool ZifyNat ZifyN.

(** Word [c] of every row is word [c + j] of the same row. *)
Definition columns (j : nat) (st : list N) : list N :=
  map (fun i => nth (4 * (i / 4) + (i + j) mod 4) st 0) (seq 0 16).
(** The word in row [r], column [c] is the one in row [r + j], column [c + j]. *)
Definition diagonals (j : nat) (st : list N) : list N :=
  map (fun i => nth (4 * ((i / 4 + j) mod 4) + (i + j) mod 4) st 0) (seq 0 16).

Lemma below4 (P : nat -> Prop) : P 0%nat -> P 1%nat -> P 2%nat -> P 3%nat -> forall j, (j < 4)%nat -> P j.
Proof. intros ? ? ? ? j ?. do 4 (destruct j as [|j]; [assumption|]). lia. Qed.

Lemma columns_wf j st : (j < 4)%nat -> wf16 st -> wf16 (columns j st).
Proof.
  intros Hj [Hl Hw]. split; [reflexivity|]. destr16 st Hl. unfold words in *. inv_forall.
  revert j Hj. apply below4; cbn; repeat (constructor; [assumption|]); constructor.
Qed.
Lemma diagonals_wf j st : (j < 4)%nat -> wf16 st -> wf16 (diagonals j st).
Proof.
  intros Hj [Hl Hw]. split; [reflexivity|]. destr16 st Hl. unfold words in *. inv_forall.
  revert j Hj. apply below4; cbn; repeat (constructor; [assumption|]); constructor.
Qed.

Lemma double_round_columns j st : (j < 4)%nat -> length st = 16%nat -> double_round (columns j st) = columns j (double_round st).
Proof.
  intros Hj Hl. destr16 st Hl. revert j Hj. apply below4; cbn [columns map seq nth Nat.div Nat.divmod Nat.modulo Nat.add Nat.sub Nat.mul fst snd];
  rewrite !double_round_eq; reflexivity.
Qed.
Lemma rounds_columns n j st : (j < 4)%nat -> wf16 st -> iter_n n double_round (columns j st) = columns j (iter_n n double_round st).
Proof.
  intros Hj H. induction n as [|n IH]; [reflexivity|]. rewrite !iter_n_S_out, IH.
  apply double_round_columns; [assumption|]. apply (iter_double_round_wf n st H).
Qed.
Lemma zip_add_columns j a b : (j < 4)%nat -> length a = 16%nat -> length b = 16%nat ->
  zip_add32 (columns j a) (columns j b) = columns j (zip_add32 a b).
Proof. intros Hj Ha Hb. destr16 a Ha. destr16 b Hb. revert j Hj. apply below4; reflexivity. Qed.

(** ChaCha: for any number of rounds and any state. *)
Theorem C68_chacha n j st : u32x16 st -> (j < 4)%nat ->
  run_rounds n (columns j st) = columns j (run_rounds n st).
Proof.
  intros H Hj. assert (Hwf : wf16 st) by exact H. unfold run_rounds. rewrite rounds_columns by assumption.
  apply zip_add_columns; [assumption | apply (iter_double_round_wf n st Hwf) | apply Hwf].
Qed.
Print Assumptions C68_chacha.

Lemma s_double_round_diagonals j st : (j < 4)%nat -> length st = 16%nat -> s_double_round (diagonals j st) = diagonals j (s_double_round st).
Proof.
  intros Hj Hl. destr16 st Hl. revert j Hj. apply below4; cbn [diagonals map seq nth Nat.div Nat.divmod Nat.modulo Nat.add Nat.sub Nat.mul fst snd];
  with_strategy transparent [s_double_round] unfold s_double_round;
  rewrite !sq_0, !sq_1, !sq_2, !sq_3, !sq_4, !sq_5, !sq_6, !sq_7; reflexivity.
Qed.
Lemma s_rounds_diagonals n j st : (j < 4)%nat -> wf16 st -> iter_n n s_double_round (diagonals j st) = diagonals j (iter_n n s_double_round st).
Proof.
  intros Hj H. induction n as [|n IH]; [reflexivity|]. rewrite !iter_n_S_out, IH.
  apply s_double_round_diagonals; [assumption|]. apply (iter_s_wf n st H).
Qed.
Lemma s_zip_add_diagonals j a b : (j < 4)%nat -> length a = 16%nat -> length b = 16%nat ->
  s_zip_add (diagonals j a) (diagonals j b) = diagonals j (s_zip_add a b).
Proof. intros Hj Ha Hb. destr16 a Ha. destr16 b Hb. revert j Hj. apply below4; reflexivity. Qed.
Lemma s_run_rounds_diagonals n j st : (j < 4)%nat -> wf16 st ->
  s_run_rounds n (diagonals j st) = diagonals j (s_run_rounds n st).
Proof.
  intros Hj Hwf. unfold s_run_rounds. rewrite s_rounds_diagonals by assumption.
  apply s_zip_add_diagonals; [assumption | apply (iter_s_wf n st Hwf) | apply Hwf].
Qed.

(** Salsa: the block of a core built from a shifted raw state is the shifted block (with
    overflow checks, unless one of the two counters is the last: then it panics, C36). *)
Theorem C68_salsa ck n j st : u32x16 st -> (j < 4)%nat ->
  (ck = true -> salsa_get_pos st <> 2 ^ 64 - 1 /\ salsa_get_pos (diagonals j st) <> 2 ^ 64 - 1) ->
  exists ws st1 st2, u32x16 ws
    /\ salsa_gen_ks_block ck n (from_raw_state st) = Ok (ss_bytes ws, st1)
    /\ salsa_gen_ks_block ck n (from_raw_state (diagonals j st)) = Ok (ss_bytes (diagonals j ws), st2).
Proof.
  intros H Hj Hck. assert (Hwf : wf16 st) by exact H. assert (Hwf' := diagonals_wf j st Hj Hwf).
  assert (C1 := s_ctr_lt st Hwf). assert (C2 := s_ctr_lt _ Hwf'). rewrite <- s_get_pos in C1, C2.
  exists (s_run_rounds n st). do 2 eexists. split; [|split].
  - apply (s_run_rounds_wf n st Hwf).
  - unfold from_raw_state. rewrite <- ss_bytes_eq. apply salsa_gen_ok; [assumption|].
    intros E. destruct (Hck E). rewrite <- s_get_pos. lia.
  - unfold from_raw_state. rewrite <- ss_bytes_eq, <- s_run_rounds_diagonals by assumption. apply salsa_gen_ok; [assumption|].
    intros E. destruct (Hck E). rewrite <- s_get_pos. lia.
Qed.
Print Assumptions C68_salsa.

(** A state equal to its own shift gives a block equal to its own shift (so at most four
    different words), whatever the number of rounds; the all-zero state gives zeros. *)
Theorem C68_symmetric ck n st : u32x16 st -> diagonals 1 st = st ->
  (ck = true -> salsa_get_pos st <> 2 ^ 64 - 1) ->
  exists a b c d st', salsa_gen_ks_block ck n (from_raw_state st)
    = Ok (ss_bytes [a; b; c; d; d; a; b; c; c; d; a; b; b; c; d; a], st').
Proof.
  intros H E Hck. assert (Hwf : wf16 st) by exact H.
  assert (C1 := s_ctr_lt st Hwf). rewrite <- s_get_pos in C1.
  assert (Es := s_run_rounds_diagonals n 1 st ltac:(lia) Hwf). rewrite E in Es.
  assert (G : salsa_gen_ks_block ck n (from_raw_state st) = Ok (ss_bytes (s_run_rounds n st), s_adv 1 st)).
  { unfold from_raw_state. rewrite <- ss_bytes_eq. apply salsa_gen_ok; [assumption|].
    intros E'. specialize (Hck E'). rewrite <- s_get_pos. lia. }
  destruct (s_run_rounds_wf n st Hwf) as [Hl _].
  remember (s_run_rounds n st) as r eqn:Er. clear Er. destr16 r Hl.
  cbn [diagonals map seq nth Nat.div Nat.divmod Nat.modulo Nat.add Nat.sub Nat.mul fst snd] in Es.
  injection Es as. subst. do 5 eexists. exact G.
Qed.
Print Assumptions C68_symmetric.

Lemma zero_rounds n : iter_n n s_double_round (repeat 0 16) = repeat 0 16.
Proof. induction n as [|n IH]; [reflexivity|]. rewrite iter_n_S_out, IH. vm_compute. reflexivity. Qed.
Theorem C68_zero ck n : exists st', salsa_gen_ks_block ck n (from_raw_state (repeat 0 16)) = Ok (repeat 0 64, st').
Proof.
  eexists. unfold from_raw_state. rewrite salsa_gen_ok.
  - unfold s_run_rounds. rewrite zero_rounds. reflexivity.
  - checks.
  - intros _. vm_compute. reflexivity.
Qed.
Print Assumptions C68_zero.

(** No two keys, nonces and positions put a cipher in states so related. *)
Theorem C68_unreachable_salsa j key1 iv1 pos1 key2 iv2 pos2 :
  octets 32 key1 -> octets 8 iv1 -> octets 32 key2 -> octets 8 iv2 -> pos1 < 2 ^ 64 -> pos2 < 2 ^ 64 -> (0 < j < 4)%nat ->
  salsa_set_pos (salsa_new key1 iv1) pos1 <> diagonals j (salsa_set_pos (salsa_new key2 iv2) pos2).
Proof.
  intros [Hk1 _] [Hi1 _] [Hk2 _] [Hi2 _] H1 H2 Hj E.
  rewrite !salsa_new_eq in E by assumption. rewrite !s_set_pos in E by assumption.
  apply (f_equal (fun l => get l 0)) in E. revert E. destruct Hj as [Hp Hj].
  unfold s_state at 2. unfold s_matrix. destruct (half_key key2 Hk2) as [A1 A2].
  pose proof (words_of_bytes_length 2 iv2 Hi2) as A3.
  set (a := words_of_bytes (firstn 16 key2)) in *. set (b := words_of_bytes (skipn 16 key2)) in *.
  set (i := words_of_bytes iv2) in *. clearbody a b i. len4 a A1. len4 b A2. len2 i A3.
  do 4 (destruct j as [|j]; [first [discriminate | exfalso; clear -Hp; lia]|]). exfalso; clear -Hj; lia.
Qed.
Print Assumptions C68_unreachable_salsa.

Lemma head_of_new v key iv st pos : new_internal v key iv = Ok st ->
  firstn 4 (set_block_pos v st pos) = CONSTANTS.
Proof.
  unfold new_internal. cbv zeta. unfold assert_.
  destruct (_ || _)%bool; [|discriminate]. cbn [bind].
  destruct (_ =? _)%nat; [|discriminate]. cbn [bind].
  destruct (_ =? _)%nat; [|discriminate]. cbn [bind].
  intros E. apply (f_equal (fun r => match r with Ok x => x | Panic => [] end)) in E. cbv beta iota in E. subst st.
  unfold CONSTANTS. destruct v; reflexivity.
Qed.
Theorem C68_unreachable_chacha j v1 key1 iv1 st1 pos1 v2 key2 iv2 st2 pos2 :
  new_internal v1 key1 iv1 = Ok st1 -> new_internal v2 key2 iv2 = Ok st2 -> (0 < j < 4)%nat ->
  set_block_pos v1 st1 pos1 <> columns j (set_block_pos v2 st2 pos2).
Proof.
  intros E1 E2 Hj E. apply (head_of_new _ _ _ _ pos1) in E1. apply (head_of_new _ _ _ _ pos2) in E2.
  rewrite E in E1. revert E1. clear E.
  remember (set_block_pos v2 st2 pos2) as s eqn:Es. clear Es.
  destruct s as [|a [|b [|c [|d s]]]]; try discriminate E2. cbn [firstn] in E2. unfold CONSTANTS in E2.
  injection E2 as -> -> -> ->. destruct Hj as [Hp Hj].
  do 4 (destruct j as [|j]; [first [discriminate | exfalso; clear -Hp; lia]|]). exfalso; clear -Hj; lia.
Qed.
Print Assumptions C68_unreachable_chacha.

(** The column rotation is no symmetry of Salsa, nor the diagonal shift one of ChaCha. *)
Theorem C68_differs :
  s_run_rounds 4 (columns 1 (map N.of_nat (seq 0 16))) <> columns 1 (s_run_rounds 4 (map N.of_nat (seq 0 16)))
  /\ run_rounds 4 (diagonals 1 (map N.of_nat (seq 0 16))) <> diagonals 1 (run_rounds 4 (map N.of_nat (seq 0 16))).
Proof. split; vm_compute; discriminate. Qed.
Print Assumptions C68_differs.

Example C68_satisfiable :
  (let st := salsa_new ex_key ex_nonce8 in
   u32x16 st /\ salsa_get_pos (diagonals 3 st) <> 2 ^ 64 - 1
   /\ (match salsa_gen_ks_block true 4 (diagonals 3 st) with Ok (b, _) => firstn 4 b | Panic => [] end)
      = (match salsa_gen_ks_block true 4 st with Ok (b, _) => firstn 4 (skipn 60 b) | Panic => [] end))
  /\ (let st := [1; 2; 3; 4; 4; 1; 2; 3; 3; 4; 1; 2; 2; 3; 4; 1] in
      u32x16 st /\ diagonals 1 st = st /\ s_run_rounds 4 st <> st).
Proof.
  cbv zeta. split; [split; [checks|split; [vm_compute; discriminate|vm_compute; reflexivity]]|].
  split; [checks|split; [reflexivity|vm_compute; discriminate]].
Qed.
