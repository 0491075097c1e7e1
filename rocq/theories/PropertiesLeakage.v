(** C50: the portable ChaCha and Salsa code leaks only public lengths and round counts
    through branches and array indices (leakage model: [Leakage.v]). *)
From Verif Require Import WordLemmas ChaChaCore ChaChaBackend ChaChaSoft XChaCha Salsa Rc4 PropCommon Leakage LeakageProofs.
From Coq Require Import Lia.

(** The instrumented functions are the functions of the model. *)
Theorem C50_faithful v n ck st key iv pos :
  value (l_soft_gen_ks_block v n st) = soft_gen_ks_block v n st
  /\ value (l_soft_gen_ks_blocks n st) = soft_gen_ks_blocks n st
  /\ value (l_new_internal v key iv) = new_internal v key iv
  /\ value (l_get_block_pos v st) = get_block_pos v st
  /\ value (l_set_block_pos v st pos) = set_block_pos v st pos
  /\ (length key = 32%nat -> length iv = 24%nat -> value (l_xchacha_new n key iv) = xchacha_new n key iv)
  /\ value (l_salsa_gen_ks_block ck n st) = salsa_gen_ks_block ck n st
  /\ value (l_salsa_new key iv) = salsa_new key iv
  /\ value (l_xsalsa_new n key iv) = xsalsa_new n key iv
  /\ value (l_salsa_get_pos st) = salsa_get_pos st
  /\ value (l_salsa_set_pos st pos) = salsa_set_pos st pos.
Proof.
  split; [apply l_soft_value|]. split; [apply l_rng_blocks_value|]. split; [apply l_new_internal_value|].
  split; [apply l_get_block_pos_value|]. split; [apply l_set_block_pos_value|]. split; [apply l_xchacha_new_value|].
  split; [apply l_salsa_value|]. split; [apply l_salsa_new_value|]. split; [apply l_xsalsa_new_value|].
  split; [apply l_salsa_get_value | apply l_salsa_set_value].
Qed.
Print Assumptions C50_faithful.

(** ChaCha: block function, RNG refill, block position. *)
Theorem C50_chacha_blocks v n st1 st2 pos1 pos2 : length st1 = 16%nat -> length st2 = 16%nat ->
  trace (l_soft_gen_ks_block v n st1) = trace (l_soft_gen_ks_block v n st2)
  /\ trace (l_soft_gen_ks_blocks n st1) = trace (l_soft_gen_ks_blocks n st2)
  /\ trace (l_get_block_pos v st1) = trace (l_get_block_pos v st2)
  /\ trace (l_set_block_pos v st1 pos1) = trace (l_set_block_pos v st2 pos2).
Proof.
  intros H1 H2. rewrite !l_soft_trace. unfold l_soft_gen_ks_blocks. rewrite !l_rng_blocks_trace, H1, H2.
  repeat (split; [reflexivity|]). split; destruct v; reflexivity.
Qed.
Print Assumptions C50_chacha_blocks.
(** Constructors of ChaCha and XChaCha. *)
Theorem C50_chacha_new v n key1 key2 iv1 iv2 : octets 32 key1 -> octets 32 key2 ->
  (length iv1 = length iv2 -> trace (l_new_internal v key1 iv1) = trace (l_new_internal v key2 iv2))
  /\ (octets 24 iv1 -> octets 24 iv2 -> trace (l_xchacha_new n key1 iv1) = trace (l_xchacha_new n key2 iv2)).
Proof.
  intros [H1 B1] [H2 B2]. split.
  - apply l_new_internal_trace; assumption.
  - intros [H3 B3] [H4 B4]. apply l_xchacha_new_trace; assumption.
Qed.
Print Assumptions C50_chacha_new.
(** Salsa, without overflow checks: no condition at all on the state's contents. *)
Theorem C50_salsa_blocks n st1 st2 pos1 pos2 : length st1 = 16%nat -> length st2 = 16%nat ->
  trace (l_salsa_gen_ks_block false n st1) = trace (l_salsa_gen_ks_block false n st2)
  /\ trace (l_salsa_get_pos st1) = trace (l_salsa_get_pos st2)
  /\ trace (l_salsa_set_pos st1 pos1) = trace (l_salsa_set_pos st2 pos2).
Proof.
  intros H1 H2. rewrite !l_salsa_get_trace, !l_salsa_set_trace. split; [|split; reflexivity].
  assert (X : forall st, exists o, salsa_gen_ks_block false n st = Ok o).
  { intros st. unfold salsa_gen_ks_block. cbv zeta. unfold add_ck. destruct (_ <? _); eexists; reflexivity. }
  destruct (X st1) as [o1 E1], (X st2) as [o2 E2]. rewrite <- l_salsa_value in E1, E2.
  rewrite (l_salsa_trace _ _ _ _ E1), (l_salsa_trace _ _ _ _ E2), H1, H2. reflexivity.
Qed.
Print Assumptions C50_salsa_blocks.
(** With overflow checks the addition tests for overflow; unless it panics, that test has
    the same outcome too. *)
Theorem C50_salsa_checked n st1 st2 o1 o2 : length st1 = 16%nat -> length st2 = 16%nat ->
  salsa_gen_ks_block true n st1 = Ok o1 -> salsa_gen_ks_block true n st2 = Ok o2 ->
  trace (l_salsa_gen_ks_block true n st1) = trace (l_salsa_gen_ks_block true n st2).
Proof.
  intros H1 H2 E1 E2. rewrite <- l_salsa_value in E1, E2.
  rewrite (l_salsa_trace _ _ _ _ E1), (l_salsa_trace _ _ _ _ E2), H1, H2. reflexivity.
Qed.
Print Assumptions C50_salsa_checked.
Theorem C50_salsa_new n key1 key2 iv1 iv2 : length key1 = 32%nat -> length key2 = 32%nat ->
  (length iv1 = 8%nat -> length iv2 = 8%nat -> trace (l_salsa_new key1 iv1) = trace (l_salsa_new key2 iv2))
  /\ (length iv1 = 24%nat -> length iv2 = 24%nat -> trace (l_xsalsa_new n key1 iv1) = trace (l_xsalsa_new n key2 iv2)).
Proof. intros H1 H2. split; intros H3 H4; [apply l_salsa_new_trace | apply l_xsalsa_new_trace]; assumption. Qed.
Print Assumptions C50_salsa_new.

(** The traces are not trivial: an IETF ChaCha20 block is 2560 quarter-round accesses, 10
    iterations of 8 quarter rounds of 32 accesses, and more; and the number of rounds
    shows. *)
Example C50_trace_nontrivial :
  length (trace (l_soft_gen_ks_block Ietf 10 (repeat 7 16))) = 2689%nat
  /\ trace (l_soft_gen_ks_block Ietf 10 (repeat 7 16)) <> trace (l_soft_gen_ks_block Ietf 4 (repeat 7 16))
  /\ trace (l_soft_gen_ks_block Ietf 4 (repeat 7 16)) <> trace (l_soft_gen_ks_block Legacy 4 (repeat 7 16)).
Proof.
  assert (X : forall v n, trace (l_soft_gen_ks_block v n (repeat 7 16)) = t_soft v n 16) by (intros; apply l_soft_trace).
  rewrite !X. split; [vm_compute; reflexivity|].
  assert (Y : forall a b : list event, length a <> length b -> a <> b) by congruence.
  split; apply Y; vm_compute; discriminate.
Qed.
(** The leakage model can tell secrets apart: in RC4, which is not constant-time and about
    which C50 makes no claim, the indices depend on the key. *)
Example C50_rc4_leaks : exists s1 s2 : rc4,
  length (k_state s1) = 256%nat /\ length (k_state s2) = 256%nat
  /\ value (l_prga s1) = (match prga s1 with Ok x => x | Panic => (0, s1) end)
  /\ trace (l_prga s1) <> trace (l_prga s2).
Proof.
  exists {| k_state := map N.of_nat (seq 0 256); k_i := 0; k_j := 0 |}, {| k_state := rev (map N.of_nat (seq 0 256)); k_i := 0; k_j := 0 |}.
  split; [vm_compute; reflexivity|]. split; [vm_compute; reflexivity|].
  with_strategy transparent [value trace lbind rd wr ret] (split; vm_compute; [reflexivity | discriminate]).
Qed.
(** With overflow checks, a Salsa state at its last counter does take another path. *)
Example C50_salsa_panic_differs :
  let st := repeat (M32 - 1) 16 in
  salsa_gen_ks_block true 4 st = Panic
  /\ length (trace (l_salsa_gen_ks_block true 4 st)) <> length (trace (l_salsa_gen_ks_block true 4 (repeat 0 16))).
Proof.
  cbv zeta. split; [vm_compute; reflexivity|].
  with_strategy transparent [value trace lbind rd wr ret emit branch s_quarter_round s_double_round] (vm_compute; discriminate).
Qed.
