(** C59: the Salsa core function (reachable through [SalsaCore::from_raw_state], as scrypt
    uses it) collides on every state: toggling the top bit of all sixteen words leaves the
    output block unchanged.  Two states that differ so are never both built by the
    ciphers' constructors. *)
From Verif Require Import Word WordLemmas Res ChaChaCore ChaChaBackend ChaChaSoft ChaChaProofs ChaChaDispatchProofs Salsa SalsaProofs PropCommon.
From Coq Require Import ZArith Lia ZifyBool ZifyNat ZifyN.
Ltac Zify.zify_post_hook ::= Z.div_mod_to_equations.

(** Toggle the most significant bit of every word. *)
Definition toggled (st : list N) : list N := map (fun w => N.lxor w (2 ^ 31)) st.

Definition tg (w : N) : N := N.lxor w (2 ^ 31).
Lemma tg_arith w : w < M32 -> tg w = (w + 2 ^ 31) mod M32.
Proof.
  intros H. unfold tg. rewrite N.lxor_comm. destruct (N.lt_ge_cases w (2 ^ 31)) as [L|L].
  - change (2 ^ 31) with (1 * 2 ^ 31) at 1. rewrite lxor_disjoint_add by assumption. rewrite N.mod_small; lia.
  - set (lo := w - 2 ^ 31). assert (Hlo : lo < 2 ^ 31) by (unfold lo; lia).
    assert (Ew : w = N.lxor (1 * 2 ^ 31) lo) by (rewrite lxor_disjoint_add by assumption; unfold lo; lia).
    rewrite Ew at 1. change (1 * 2 ^ 31) with (2 ^ 31). rewrite <- N.lxor_assoc, N.lxor_nilpotent, N.lxor_0_l.
    unfold lo. lia.
Qed.
Lemma tg_lt w : w < M32 -> tg w < M32.
Proof. intros H. rewrite tg_arith by assumption. apply N.mod_lt. discriminate. Qed.
Lemma add_tg a b : a < M32 -> b < M32 -> add32 (tg a) (tg b) = add32 a b.
Proof. intros Ha Hb. rewrite !tg_arith by assumption. unfold add32. lia. Qed.
Lemma xor_tg a b : xor32 (tg a) b = tg (xor32 a b).
Proof. unfold xor32, tg. rewrite !N.lxor_assoc. f_equal. apply N.lxor_comm. Qed.

Lemma z_b_tg a b d : a < M32 -> b < M32 -> d < M32 -> z_b (tg a) (tg b) (tg d) = tg (z_b a b d).
Proof. intros. with_strategy transparent [z_b] unfold z_b. rewrite add_tg by assumption. apply xor_tg. Qed.
Lemma z_c_tg a b c d : a < M32 -> b < M32 -> c < M32 -> d < M32 -> z_c (tg a) (tg b) (tg c) (tg d) = tg (z_c a b c d).
Proof.
  intros. with_strategy transparent [z_c] unfold z_c. rewrite z_b_tg by assumption.
  rewrite add_tg by auto using z_b_lt. apply xor_tg.
Qed.
Lemma z_d_tg a b c d : a < M32 -> b < M32 -> c < M32 -> d < M32 -> z_d (tg a) (tg b) (tg c) (tg d) = tg (z_d a b c d).
Proof.
  intros. with_strategy transparent [z_d] unfold z_d. rewrite z_b_tg, z_c_tg by assumption.
  rewrite add_tg by auto using z_b_lt, z_c_lt. apply xor_tg.
Qed.
Lemma z_a_tg a b c d : a < M32 -> b < M32 -> c < M32 -> d < M32 -> z_a (tg a) (tg b) (tg c) (tg d) = tg (z_a a b c d).
Proof.
  intros. with_strategy transparent [z_a] unfold z_a. rewrite z_c_tg, z_d_tg by assumption.
  rewrite add_tg by auto using z_d_lt, z_c_lt. apply xor_tg.
Qed.
Lemma toggled_eq st : toggled st = map tg st. Proof. reflexivity. Qed.
Lemma toggled_wf st : wf16 st -> wf16 (toggled st).
Proof.
  intros [Hl Hw]. split; [unfold toggled; rewrite map_length; assumption|].
  unfold words, W32 in *. rewrite toggled_eq. apply Forall_map. eapply Forall_impl; [|exact Hw]. apply tg_lt.
Qed.
Lemma double_round_toggled st : wf16 st -> s_double_round (toggled st) = toggled (s_double_round st).
Proof.
  intros [Hl Hw]. destr16 st Hl. rewrite !toggled_eq. cbn [map].
  with_strategy transparent [s_double_round] unfold s_double_round.
  rewrite !sq_0, !sq_1, !sq_2, !sq_3, !sq_4, !sq_5, !sq_6, !sq_7. cbn [map].
  unfold words in Hw. inv_forall. unfold W32 in *.
  rewrite ?z_b_tg, ?z_c_tg, ?z_d_tg, ?z_a_tg by auto using z_a_lt, z_b_lt, z_c_lt, z_d_lt.
  repeat (rewrite ?z_b_tg, ?z_c_tg, ?z_d_tg, ?z_a_tg by auto using z_a_lt, z_b_lt, z_c_lt, z_d_lt).
  reflexivity.
Qed.
Lemma rounds_toggled n st : wf16 st -> iter_n n s_double_round (toggled st) = toggled (iter_n n s_double_round st).
Proof.
  intros H. induction n as [|n IH]; [reflexivity|]. rewrite !iter_n_S_out, IH.
  apply double_round_toggled. apply iter_s_wf. assumption.
Qed.
Lemma zip_add_toggled : forall a b, words a -> words b -> length a = length b -> s_zip_add (toggled a) (toggled b) = s_zip_add a b.
Proof.
  unfold words, W32. induction a as [|x a IH]; intros [|y b] Ha Hb E; cbn in E; try discriminate; [reflexivity|].
  inversion Ha as [|? ? Hx Ha']; inversion Hb as [|? ? Hy Hb']; subst.
  change (add32 (tg x) (tg y) :: s_zip_add (toggled a) (toggled b) = add32 x y :: s_zip_add a b).
  rewrite add_tg by assumption. f_equal. apply IH; [assumption|assumption|congruence].
Qed.
Lemma run_rounds_toggled n st : wf16 st -> s_run_rounds n (toggled st) = s_run_rounds n st.
Proof.
  intros H. unfold s_run_rounds. rewrite rounds_toggled by assumption.
  destruct (iter_s_wf n st H) as [Hl Hw]. destruct H as [Hl0 Hw0].
  apply zip_add_toggled; [assumption|assumption|congruence].
Qed.

(** For any 16-word state, any number of rounds and either build profile: a core built
    from the state and one built from the toggled state output the same block (with
    overflow checks, unless one of the two counters is the last: then it panics, C36). *)
Theorem C59_collision ck n st : u32x16 st ->
  (ck = true -> salsa_get_pos st <> 2 ^ 64 - 1 /\ salsa_get_pos (toggled st) <> 2 ^ 64 - 1) ->
  toggled st <> st
  /\ exists block st1 st2, salsa_gen_ks_block ck n (from_raw_state st) = Ok (block, st1)
     /\ salsa_gen_ks_block ck n (from_raw_state (toggled st)) = Ok (block, st2).
Proof.
  intros H Hck. assert (Hwf : wf16 st) by exact H. assert (Hwf' := toggled_wf st Hwf). split.
  - destruct Hwf as [Hl Hw]. destr16 st Hl. rewrite toggled_eq. cbn [map]. intros E.
    apply (f_equal (fun l => get l 0)) in E. cbn [get nth] in E.
    unfold words in Hw. inv_forall. unfold W32 in *. rewrite tg_arith in E by assumption. lia.
  - assert (C1 := s_ctr_lt st Hwf). assert (C2 := s_ctr_lt _ Hwf'). rewrite <- s_get_pos in C1, C2.
    unfold from_raw_state. do 3 eexists. split.
    + apply salsa_gen_ok; [assumption|]. intros E. destruct (Hck E). rewrite <- s_get_pos. lia.
    + rewrite <- (run_rounds_toggled n st) by assumption.
      apply salsa_gen_ok; [assumption|]. intros E. destruct (Hck E). rewrite <- s_get_pos. lia.
Qed.
Print Assumptions C59_collision.

(** No two keys, nonces and positions put a cipher in states that differ so. *)
Theorem C59_unreachable key1 iv1 pos1 key2 iv2 pos2 :
  octets 32 key1 -> octets 8 iv1 -> octets 32 key2 -> octets 8 iv2 -> pos1 < 2 ^ 64 -> pos2 < 2 ^ 64 ->
  salsa_set_pos (salsa_new key1 iv1) pos1 <> toggled (salsa_set_pos (salsa_new key2 iv2) pos2).
Proof.
  intros [Hk1 _] [Hi1 _] [Hk2 _] [Hi2 _] H1 H2 E.
  rewrite !salsa_new_eq in E by assumption. rewrite !s_set_pos in E by assumption.
  apply (f_equal (fun l => get l 0)) in E. revert E. discriminate.
Qed.
Print Assumptions C59_unreachable.

(** ChaCha has no such relation: here is a state whose block changes. *)
Theorem C59_chacha_differs : exists st, u32x16 st
  /\ run_rounds 10 st <> run_rounds 10 (toggled st).
Proof. exists (CONSTANTS ++ repeat 0 12). split; [checks|]. vm_compute. discriminate. Qed.
Print Assumptions C59_chacha_differs.

Example C59_satisfiable : let st := salsa_new ex_key ex_nonce8 in
  u32x16 st /\ salsa_get_pos st <> 2 ^ 64 - 1 /\ salsa_get_pos (toggled st) <> 2 ^ 64 - 1
  /\ (match salsa_gen_ks_block true 4 (toggled st) with Ok (b, _) => firstn 4 b | Panic => [] end)
     = (match salsa_gen_ks_block true 4 st with Ok (b, _) => firstn 4 b | Panic => [] end).
Proof. cbv zeta. checks. Qed.
