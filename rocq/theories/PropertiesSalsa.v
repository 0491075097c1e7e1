(** Final theorems C32-C36 (Salsa20 block level). *)
From Coq Require Import String.
From Verif Require Import Word Res WordLemmas Hex PropCommon SpecSalsa Salsa ChaChaProofs SalsaProofs ChaChaDispatchProofs WrapperProofs.
From Coq Require Import ZArith Lia ZifyBool ZifyNat ZifyN.
Ltac Zify.zify_post_hook ::= Z.div_mod_to_equations.
Local Open Scope string_scope.
Local Open Scope N_scope.
Local Open Scope list_scope.

(** Concrete data used by the examples. *)
Definition ex_skey := hex "8000000000000000000000000000000000000000000000000000000000000000".
Definition ex_snonce := hex "0000000000000000".
Definition ex_sstate := s_state ex_key ex_nonce8 0xffffffff.
Definition ex_xkey := hex "746869732069732033322d62797465206b657920666f72207873616c73613230".
Definition ex_xnonce := hex "32342d62797465206e6f6e636520666f72207873616c7361".

Lemma s_set_pos_state key iv c pos : List.length key = 32%nat -> List.length iv = 8%nat -> pos < 2 ^ 64 ->
  salsa_set_pos (s_state key iv c) pos = s_state key iv pos.
Proof.
  change (2 ^ 64) with M64. intros Hk Hi Hp. rewrite s_set_pos by assumption.
  unfold s_state, s_matrix. destruct (half_key key Hk) as [H1 H2].
  pose proof (words_of_bytes_length 2 iv Hi) as H3.
  set (a := words_of_bytes (firstn 16 key)) in *. set (b := words_of_bytes (skipn 16 key)) in *.
  set (i := words_of_bytes iv) in *. clearbody a b i. len4 a H1. len4 b H2. len2 i H3.
  cbn [app upd]. replace (pos / M32 mod M32) with (pos / M32) by lia. reflexivity.
Qed.
Lemma s_ctr_state key iv c : List.length key = 32%nat -> List.length iv = 8%nat -> s_ctr (s_state key iv c) = c mod M64.
Proof.
  intros Hk Hi. unfold s_state, s_matrix, s_ctr, get. destruct (half_key key Hk) as [H1 H2].
  pose proof (words_of_bytes_length 2 iv Hi) as H3.
  set (a := words_of_bytes (firstn 16 key)) in *. set (b := words_of_bytes (skipn 16 key)) in *.
  set (i := words_of_bytes iv) in *. clearbody a b i. len4 a H1. len4 b H2. len2 i H3.
  cbn [app nth]. lia.
Qed.

(** ** C32 *)
Theorem C32_salsa_is_salsa20 ck n key nonce pos k :
  octets 32 key -> octets 8 nonce -> pos + N.of_nat k < 2 ^ 64 ->
  let st := salsa_new key nonce in
  salsa_get_pos st = 0 /\ exists st',
  salsa_write ck n k (salsa_set_pos st pos)
  = Ok (flat_map (fun i => ss_block n key nonce (pos + N.of_nat i)) (seq 0 k), st')
  /\ (pos = 0 -> salsa_set_pos st pos = st).
Proof.
  intros [Hk Bk] [Hn Bn] Hp st. unfold st. rewrite salsa_new_eq by assumption. split.
  - rewrite s_get_pos. apply (s_ctr_state key nonce 0); assumption.
  - rewrite s_set_pos_state by (try assumption; lia). eexists. split.
    + rewrite salsa_write_ok.
      * rewrite s_blocks_spec by assumption. reflexivity.
      * apply s_state_wf; assumption.
      * intros _. rewrite s_ctr_state by assumption. rewrite N.mod_small; change (2 ^ 64) with M64 in Hp; lia.
    + intros ->. reflexivity.
Qed.
Print Assumptions C32_salsa_is_salsa20.
(** ECRYPT vector, set 1 vector 0: the first block. *)
Example C32_satisfiable : octets 32 ex_skey /\ octets 8 ex_snonce /\ 0 + N.of_nat 3 < 2 ^ 64 /\
  ss_block 10 ex_skey ex_snonce 0 = hex "e3be8fdd8beca2e3ea8ef9475b29a6e7003951e1097a5c38d23b7a5fad9f6844b22c97559e2723c7cbbd3fe4fc8d9a0744652a83e72a9c461876af4d7ef1a117".
Proof. checks. Qed.
(** The last block (number 2^64-1) too, without overflow checks. *)
Theorem C32_last_block n key nonce : octets 32 key -> octets 8 nonce ->
  exists st', salsa_write false n 1 (salsa_set_pos (salsa_new key nonce) (2 ^ 64 - 1))
              = Ok (ss_block n key nonce (2 ^ 64 - 1), st').
Proof.
  intros [Hk Bk] [Hn Bn]. rewrite salsa_new_eq by assumption. rewrite s_set_pos_state by (try assumption; reflexivity).
  eexists. rewrite salsa_write_ok; [| apply s_state_wf; assumption | discriminate].
  rewrite s_blocks_spec by assumption. cbn [seq flat_map]. rewrite app_nil_r, N.add_0_r. reflexivity.
Qed.
Print Assumptions C32_last_block.

(** ** C33 *)
Theorem C33_block_seek st pos : u32x16 st -> pos < 2 ^ 64 ->
  salsa_get_pos (salsa_set_pos st pos) = pos
  /\ u32x16 (salsa_set_pos st pos)
  /\ firstn 8 (salsa_set_pos st pos) = firstn 8 st
  /\ skipn 10 (salsa_set_pos st pos) = skipn 10 st.
Proof.
  change (2 ^ 64) with M64. intros [Hl Hw] Hp. rewrite s_get_pos, s_set_pos by assumption.
  destr16 st Hl. unfold s_ctr, get. cbn [upd nth firstn skipn]. split; [lia|]. split; [|split; reflexivity].
  split; [reflexivity|]. change (2 ^ 32) with M32 in *. inv_forall. repeat constructor; try assumption; lia.
Qed.
Print Assumptions C33_block_seek.
Theorem C33_counter ck n k st : u32x16 st ->
  match salsa_write ck n k st with
  | Ok (out, st') =>
      List.length out = (64 * k)%nat /\ u32x16 st'
      /\ salsa_get_pos st' = (salsa_get_pos st + N.of_nat k) mod 2 ^ 64
      /\ firstn 8 st' = firstn 8 st /\ skipn 10 st' = skipn 10 st
      /\ (ck = true -> salsa_get_pos st + N.of_nat k < 2 ^ 64)
  | Panic => ck = true /\ 2 ^ 64 <= salsa_get_pos st + N.of_nat k
  end.
Proof.
  change (2 ^ 64) with M64. intros H. rewrite !s_get_pos.
  destruct (Bool.bool_dec ck true) as [E|E]; [destruct (N.lt_ge_cases (s_ctr st + N.of_nat k) M64) as [L|L]|].
  2:{ subst. rewrite salsa_write_panic by assumption. split; [reflexivity|assumption]. }
  all: rewrite salsa_write_ok by (try assumption; tauto).
  all: split; [unfold s_blocks; apply flat_map_len; intros i; rewrite bytes_of_words_length; destruct (s_run_rounds_wf n _ (s_adv_wf (N.of_nat i) st H)) as [-> _]; reflexivity|].
  all: split; [exact (s_adv_wf (N.of_nat k) st H)|].
  all: split; [rewrite s_get_pos; apply s_ctr_adv; assumption|].
  all: destruct H as [Hl Hw]; destr16 st Hl; split; [reflexivity|]; split; [reflexivity|]; tauto.
Qed.
Print Assumptions C33_counter.
Example C33_satisfiable : u32x16 ex_sstate /\ 0x123456789abcdef0 < 2 ^ 64
  /\ salsa_get_pos (salsa_set_pos ex_sstate 0x123456789abcdef0) = 0x123456789abcdef0
  /\ (match salsa_write true 10 2 ex_sstate with Ok (_, st') => salsa_get_pos st' | Panic => 0 end) = 0x100000001
  /\ salsa_write true 10 2 (salsa_set_pos ex_sstate (2 ^ 64 - 2)) = Panic
  /\ (match salsa_write false 10 2 (salsa_set_pos ex_sstate (2 ^ 64 - 1)) with Ok (_, st') => salsa_get_pos st' | Panic => 0 end) = 1.
Proof. checks. Qed.

(** ** C34 *)
Theorem C34_hsalsa n key input : octets 32 key -> octets 16 input -> hsalsa n key input = ss_hsalsa n key input.
Proof. intros [? ?] [? ?]. apply hsalsa_spec; assumption. Qed.
Print Assumptions C34_hsalsa.
Theorem C34_xsalsa ck n key nonce pos k :
  octets 32 key -> octets 24 nonce -> pos + N.of_nat k < 2 ^ 64 ->
  let st := xsalsa_new n key nonce in
  salsa_get_pos st = 0 /\ exists st',
  salsa_write ck n k (salsa_set_pos st pos)
  = Ok (flat_map (fun i => ss_xblock n key nonce (pos + N.of_nat i)) (seq 0 k), st')
  /\ (pos = 0 -> salsa_set_pos st pos = st).
Proof.
  intros [Hk Bk] [Hn Bn] Hp st. unfold st.
  assert (H16 : List.length (firstn 16 nonce) = 16%nat) by (rewrite firstn_length, Hn; reflexivity).
  assert (E : xsalsa_new n key nonce = salsa_new (ss_hsalsa n key (firstn 16 nonce)) (skipn 16 nonce)).
  { rewrite <- hsalsa_spec by (try assumption; apply bytes_firstn; assumption). reflexivity. }
  rewrite E. apply (C32_salsa_is_salsa20 ck n _ _ pos k).
  - rewrite <- hsalsa_spec by (try assumption; apply bytes_firstn; assumption).
    split; [apply hsalsa_length | apply hsalsa_bytes]; assumption.
  - split; [rewrite skipn_length, Hn; reflexivity | apply bytes_skipn; assumption].
  - assumption.
Qed.
Print Assumptions C34_xsalsa.
(** The repository's own vector (from the Crypto++ test-suite). *)
Example C34_satisfiable : octets 32 ex_xkey /\ octets 24 ex_xnonce /\ octets 16 ex_input16 /\
  ss_xblock 10 ex_xkey ex_xnonce 0 = hex "4848297feb1fb52fb66d81609bd547fabcbe7026edc8b5e5e449d088bfa69c088f5d8da1d791267c2c195a7f8cae9c4b4050d08ce6d3a151ec265f3a58e47648".
Proof. checks. Qed.

(** ** C35 *)
(** The [i]-th output word of [hsalsa] is word [key_idx i] of the Salsa core of the same
    matrix minus that matrix's word, which is public (a constant or part of the input). *)
Theorem C35_hsalsa_from_core n key input : octets 32 key -> octets 16 input ->
  let s := ss_words 16 (ss_expand_input key input) in
  let minus i := (nth i (ss_core n s) 0 + 2 ^ 32 - nth i s 0) mod 2 ^ 32 in
  hsalsa n key input = ss_bytes (map minus [0; 5; 10; 15; 6; 7; 8; 9]%nat)
  /\ forall key', List.length key' = 32%nat ->
     let s' := ss_words 16 (ss_expand_input key' input) in
     map (fun i => nth i s 0) [0; 5; 10; 15; 6; 7; 8; 9]%nat = map (fun i => nth i s' 0) [0; 5; 10; 15; 6; 7; 8; 9]%nat.
Proof.
  intros [Hk Bk] [Hi Bi] s minus. split.
  - rewrite C34_hsalsa by (split; assumption). unfold ss_hsalsa. fold s. cbv zeta. f_equal.
    assert (Hwf : wf16 s).
    { unfold s. rewrite expand_words by assumption. apply s_matrix_wf; try assumption;
        [apply (words_of_bytes_length 4) | apply words_of_bytes_wf]; assumption. }
    assert (Hr : wf16 (ss_rounds n s)) by (rewrite <- iter_s_spec by assumption; apply iter_s_wf; assumption).
    unfold minus, ss_core. clearbody s. remember (ss_rounds n s) as r eqn:Er. clear Er minus.
    destruct Hwf as [Hl Hw], Hr as [Hl' Hw']. destr16 s Hl. unfold words in *.
    do 16 (destruct r as [|? r]; [discriminate Hl'|]). destruct r; [|discriminate Hl']. inv_forall. unfold W32 in *.
    cbn [combine map fst snd nth].
    assert (A : forall a b, a < M32 -> b < M32 -> (ss_plus b a + 2 ^ 32 - b) mod 2 ^ 32 = a).
    { unfold ss_plus. change (2 ^ 32) with M32. intros. lia. }
    rewrite !A by assumption. reflexivity.
  - intros key' Hk' s'. unfold s, s'. rewrite !expand_words by assumption. unfold s_matrix.
    destruct (half_key key Hk) as [H1 H2]. destruct (half_key key' Hk') as [H1' H2'].
    pose proof (words_of_bytes_length 4 input Hi) as H3.
    set (a := words_of_bytes (firstn 16 key)) in *. set (b := words_of_bytes (skipn 16 key)) in *.
    set (a' := words_of_bytes (firstn 16 key')) in *. set (b' := words_of_bytes (skipn 16 key')) in *.
    set (i := words_of_bytes input) in *. clearbody a b i a' b'. len4 a H1. len4 b H2. len4 a' H1'. len4 b' H2'. len4 i H3.
    reflexivity.
Qed.
Print Assumptions C35_hsalsa_from_core.
Example C35_satisfiable : octets 32 ex_key /\ octets 16 ex_input16
  /\ hsalsa 10 ex_key ex_input16 <> hsalsa 10 ex_xkey ex_input16.
Proof. checks. Qed.

(** ** C36 *)
(** Exact behaviour: the core function, except a panic for counter words all-ones in a
    build with overflow checks. *)
Theorem C36_from_raw_state ck n st : u32x16 st ->
  (exists st', salsa_gen_ks_block ck n (from_raw_state st) = Ok (ss_bytes (ss_core n st), st'))
  \/ (ck = true /\ nth 8 st 0 = 2 ^ 32 - 1 /\ nth 9 st 0 = 2 ^ 32 - 1 /\ salsa_gen_ks_block ck n (from_raw_state st) = Panic).
Proof.
  intros H. unfold from_raw_state. pose proof (s_ctr_lt st H) as L.
  destruct (N.eq_dec (s_ctr st) (M64 - 1)) as [E|E]; [destruct (Bool.bool_dec ck true) as [T|T]|].
  1:{ right. subst. split; [reflexivity|]. destruct H as [Hl Hw]. 
      pose proof (Forall_get W32 st 8 Hw ltac:(reflexivity)) as A. pose proof (Forall_get W32 st 9 Hw ltac:(reflexivity)) as B.
      unfold W32, s_ctr, get in *. change (2 ^ 32) with M32 in *.
      split; [lia|]. split; [lia|]. apply salsa_gen_panic; [split; assumption | assumption]. }
  all: left; eexists; rewrite salsa_gen_ok by (try assumption; try tauto; intros; lia);
       rewrite s_run_rounds_spec, ss_bytes_eq by assumption; reflexivity.
Qed.
Print Assumptions C36_from_raw_state.
(** Without overflow checks (release profile) the property holds for every state. *)
Theorem C36_release n st : u32x16 st ->
  exists st', salsa_gen_ks_block false n (from_raw_state st) = Ok (ss_bytes (ss_core n st), st').
Proof. intros H. destruct (C36_from_raw_state false n st H) as [E|[E _]]; [exact E|discriminate]. Qed.
Print Assumptions C36_release.
(** "In every build profile" is false. *)
Theorem C36_refuted : exists ck n st, u32x16 st /\ salsa_gen_ks_block ck n (from_raw_state st) = Panic.
Proof.
  exists true, 4%nat, (repeat 0 8 ++ [0xffffffff; 0xffffffff] ++ repeat 0 6).
  split; [apply u32x16_check|]; vm_compute; reflexivity.
Qed.
Print Assumptions C36_refuted.
(** The witness without overflow checks, for comparison. *)
Example C36_satisfiable :
  let st := repeat 0 8 ++ [0xffffffff; 0xffffffff] ++ repeat 0 6 in
  u32x16 st /\ (match salsa_gen_ks_block false 4 (from_raw_state st) with Ok (o, _) => o | Panic => [] end) = ss_bytes (ss_core 4 st).
Proof. cbv zeta. checks. Qed.
