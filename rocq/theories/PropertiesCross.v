(** C75: a block of known plaintext under one cipher type gives, without the key, the subkey of
    the extended-nonce type, when both are used under one key. *)
From Coq Require Import String.
From Verif Require Import Word Res WordLemmas Hex PropCommon SpecStream SpecChaCha SpecSalsa ChaChaCore ChaChaDispatch XChaCha
  Salsa Ciphers CipherWrapper WrapperProofs CiphersProofs StreamLemmas ChaChaProofs SalsaProofs ChaChaDispatchProofs PropertiesChaCha PropertiesSalsa PropertiesStream PropertiesInterop SpecRng BlockRng ChaChaRng PropertiesRng.
From Coq Require Import ZArith Lia ZifyBool ZifyNat ZifyN.
Local Open Scope string_scope.
Local Open Scope N_scope.
Local Open Scope list_scope.

(** What an observer computes: the keystream block is the exclusive or of message and
    ciphertext; from its words the words of the initial state are taken that everybody knows. *)
Definition x_or (a b : list N) : list N := map (fun x => N.lxor (fst x) (snd x)) (combine a b).
Definition x_minus (block : list N) (p : nat * N) : N := (sp_word block (fst p) + 2 ^ 32 - snd p) mod 2 ^ 32.
(** [input]: 16 bytes, counter and nonce as ChaCha places them. *)
Definition steal_chacha (input m ct : list N) : list N :=
  sp_serialize (map (x_minus (x_or m ct)) (combine [0; 1; 2; 3; 12; 13; 14; 15]%nat (sp_constants ++ sp_words 4 input))).
(** [input]: nonce and counter as Salsa places them. *)
Definition steal_salsa (input m ct : list N) : list N :=
  sp_serialize (map (x_minus (x_or m ct)) (combine [0; 5; 10; 15; 6; 7; 8; 9]%nat (sp_constants ++ sp_words 4 input))).

Lemma xor_back d k : List.length d = List.length k -> x_or d (x_or d k) = k.
Proof.
  revert k. induction d as [|x d IH]; intros [|y k] H; try discriminate; [reflexivity|].
  unfold x_or in *. cbn [combine map fst snd]. rewrite <- N.lxor_assoc, N.lxor_nilpotent, N.lxor_0_l. f_equal. apply IH. injection H as H. exact H.
Qed.
(** The ciphertext of a block at a block boundary. *)
Lemma known_block e c q d ct l : env_ok e -> cipher_ok c -> call_ok e (Apply d) -> cipher_lim c = Some l -> List.length d = 64%nat ->
  cipher_run e c [Seek (64 * q); Apply d] = Ok [Done; Bytes ct] -> x_or d ct = ks_range (cipher_ks c) (64 * q) 64.
Proof.
  intros He Hc Hd Hl Ld H. rewrite C17_history in H by (try assumption; repeat constructor; exact Hd).
  cbn [run_spec step_spec] in H. rewrite Hl in H.
  destruct (64 * q / l_bs l <? l_blocks l); [|destruct (granted l 0 _); discriminate H]. destruct (cipher_strict e c && _)%bool; [discriminate H|].
  destruct (granted l (64 * q) _); [|discriminate H].
  assert (E : ct = ks_xor (cipher_ks c) (64 * q) d) by congruence. rewrite E. unfold ks_xor. fold (x_or d (ks_range (cipher_ks c) (64 * q) (List.length d))).
  rewrite xor_back, Ld; [reflexivity|]. unfold ks_range. rewrite map_length, seq_length. reflexivity.
Qed.
Lemma whole_block blk q : List.length (blk q) = 64%nat -> ks_range (ks_of_blocks 64 blk) (64 * q) 64 = blk q.
Proof.
  intros H. unfold ks_range, ks_of_blocks. apply nth_ext with (d := 0) (d' := 0); [rewrite map_length, seq_length, H; reflexivity|].
  intros i Hi. rewrite map_length, seq_length in Hi.
  assert (Nm : forall f : nat -> N, nth i (map f (seq 0 64)) 0 = f i).
  { intros f. rewrite (nth_indep _ 0 (f 0%nat)) by (rewrite map_length, seq_length; exact Hi). rewrite map_nth, seq_nth by exact Hi. reflexivity. }
  rewrite Nm.
  assert (E1 : (64 * q + N.of_nat i) mod 64 = N.of_nat i) by (rewrite N.add_comm, N.mul_comm, N.mod_add by discriminate; apply N.mod_small; lia).
  assert (E2 : (64 * q + N.of_nat i) / 64 = q) by (rewrite N.add_comm, N.mul_comm, N.div_add by discriminate; rewrite N.div_small by lia; reflexivity).
  rewrite E1, E2, Nnat.Nat2N.id. reflexivity.
Qed.
Lemma serialize_word l : forall i, Forall (fun w => w < 2 ^ 32) l -> (i < List.length l)%nat -> sp_word (sp_serialize l) i = nth i l 0.
Proof.
  induction l as [|w l IH]; intros i Hw Hi; [cbn in Hi; lia|]. inversion Hw as [|? ? H1 H2]; subst. destruct i as [|i].
  - unfold sp_word, sp_serialize. cbn [flat_map app Nat.mul Nat.add nth]. apply word_of_bytes. exact H1.
  - cbn [nth]. rewrite <- (IH i H2) by (cbn in Hi; lia). unfold sp_word, sp_serialize. cbn [flat_map].
    replace (4 * S i)%nat with (S (S (S (S (4 * i)))))%nat by lia. reflexivity.
Qed.
Lemma sp_core_words dr s : Forall (fun w => w < 2 ^ 32) (sp_core dr s).
Proof. unfold sp_core. apply Forall_forall. intros x Hx. apply in_map_iff in Hx. destruct Hx as (p & <- & _). unfold sp_plus. apply N.mod_lt. discriminate. Qed.
Lemma serialize_length l : List.length (sp_serialize l) = (4 * List.length l)%nat.
Proof. unfold sp_serialize. induction l as [|w l IH]; [reflexivity|]. cbn [flat_map List.length app]. rewrite IH. lia. Qed.
Lemma octets_split n k l : (k <= n)%nat -> octets n l -> octets k (firstn k l) /\ octets (n - k) (skipn k l).
Proof.
  intros Hk [H B]. split; split; rewrite ?firstn_length, ?skipn_length, ?H; try lia; [apply bytes_firstn | apply bytes_skipn]; exact B.
Qed.

(** The 16 bytes of input as counter and nonce of ChaCha20, and of ChaCha20Legacy. *)
Lemma input_words input : octets 16 input ->
  sp_words 4 input = sp_word input 0 :: sp_words 3 (skipn 4 input)
  /\ sp_words 4 input = sp_word input 0 :: sp_word input 1 :: sp_words 2 (skipn 8 input)
  /\ sp_word input 0 < 2 ^ 32 /\ sp_word input 1 < 2 ^ 32.
Proof.
  intros [H B]. do 16 (destruct input as [|? input]; [discriminate H|]). destruct input; [|discriminate H].
  unfold bytes in B. inv_forall. split; [reflexivity|]. split; [reflexivity|]. unfold sp_word. cbn [nth Nat.mul Nat.add]. split; lia.
Qed.

Lemma sp_double_length s : List.length s = 16%nat -> List.length (sp_double_round s) = 16%nat.
Proof.
  intros H. destr16 s H. unfold sp_double_round. repeat match goal with |- context [sp_QR ?a ?b ?c ?d] => destruct (sp_QR a b c d) as [[[? ?] ?] ?] end. reflexivity.
Qed.
Lemma sp_rounds_length n s : List.length s = 16%nat -> List.length (sp_rounds n s) = 16%nat.
Proof. intros H. induction n as [|n IH]; [exact H|]. exact (sp_double_length _ IH). Qed.
Lemma sp_core_length n s : List.length s = 16%nat -> List.length (sp_core n s) = 16%nat.
Proof. intros H. unfold sp_core. rewrite map_length, combine_length, sp_rounds_length, H by exact H. reflexivity. Qed.
Lemma steal_chacha_ok n key input m ct : octets 32 key -> octets 16 input ->
  x_or m ct = sp_serialize (sp_core n (sp_constants ++ sp_words 8 key ++ sp_words 4 input)) ->
  steal_chacha input m ct = hchacha n key input.
Proof.
  intros Hk Hi E. rewrite (C12_hchacha_from_block n key input Hk Hi). unfold steal_chacha. rewrite E. f_equal.
  assert (L : List.length (sp_core n (sp_constants ++ sp_words 8 key ++ sp_words 4 input)) = 16%nat).
  { apply sp_core_length. reflexivity. }
  assert (W := sp_core_words n (sp_constants ++ sp_words 8 key ++ sp_words 4 input)).
  set (core := sp_core n (sp_constants ++ sp_words 8 key ++ sp_words 4 input)) in *.
  assert (X : forall i p, (i < 16)%nat -> x_minus (sp_serialize core) (i, p) = (nth i core 0 + 2 ^ 32 - p) mod 2 ^ 32).
  { intros i p Hip. unfold x_minus. cbn [fst snd]. rewrite serialize_word by (first [exact W | rewrite L; exact Hip]). reflexivity. }
  clearbody core. unfold sp_words. cbn [seq map app combine]. change sp_constants with (map (fun i => nth i sp_constants 0) (seq 0 4)).
  cbn [seq map app combine nth]. rewrite !X by lia. reflexivity.
Qed.

(** ChaCha20 and XChaCha20 under one key: 64 known bytes encrypted with the first at block [q]
    make every message encrypted with the second, under a nonce that begins with that block
    number and nonce, readable without the key. *)
Theorem C75_chacha e n key input tail m ct h : env_ok e -> octets 32 key -> octets 16 input -> octets 8 tail -> octets 64 m ->
  cipher_run e (CChaCha Ietf n key (skipn 4 input)) [Seek (64 * sp_word input 0); Apply m] = Ok [Done; Bytes ct] ->
  Forall (call_ok e) h ->
  cipher_run e (CXChaCha n key (input ++ tail)) h
  = cipher_run e (CChaCha Ietf n (steal_chacha input m ct) ([0; 0; 0; 0] ++ tail)) h.
Proof.
  intros He Hk Hi Ht [Lm Bm] H Hh. destruct (input_words input Hi) as (W3 & W2 & W0 & W1).
  destruct (octets_split 16 4 input ltac:(lia) Hi) as [_ Hn].
  assert (Hc : call_ok e (Apply m)). { cbn [call_ok]. rewrite Lm. destruct He as [E|[E|E]]; rewrite E; reflexivity. }
  apply (known_block e _ _ _ _ {| l_bs := 64; l_blocks := 2 ^ 32 |}) in H; try assumption; [|split; assumption | reflexivity].
  cbn [cipher_ks] in H. rewrite whole_block in H.
  - rewrite (steal_chacha_ok n key input m ct Hk Hi).
    + rewrite C63_xchacha; try assumption.
      * rewrite (firstn_app_len input tail 16), (skipn_app_len input tail 16) by apply Hi. reflexivity.
      * destruct Hi as [Li Bi], Ht as [Lt Bt]. split; [rewrite app_length, Li, Lt; reflexivity | apply Forall_app; split; assumption].
    + rewrite H. unfold sp_ietf_block, sp_ietf_state. rewrite N.mod_small by exact W0. rewrite W3. reflexivity.
  - unfold sp_ietf_block. rewrite serialize_length, sp_core_length; reflexivity.
Qed.
Print Assumptions C75_chacha.
(** The same from ChaCha20Legacy, with its 64-bit block number; the generators of
    [rng.rs] draw from this keystream (C22), so their output does the same to XChaCha20
    under the seed as key. *)
Theorem C75_legacy e n key input tail m ct h : env_ok e -> octets 32 key -> octets 16 input -> octets 8 tail -> octets 64 m ->
  cipher_run e (CChaCha Legacy n key (skipn 8 input)) [Seek (64 * (sp_word input 0 + 2 ^ 32 * sp_word input 1)); Apply m] = Ok [Done; Bytes ct] ->
  Forall (call_ok e) h ->
  cipher_run e (CXChaCha n key (input ++ tail)) h
  = cipher_run e (CChaCha Ietf n (steal_chacha input m ct) ([0; 0; 0; 0] ++ tail)) h.
Proof.
  intros He Hk Hi Ht [Lm Bm] H Hh. destruct (input_words input Hi) as (W3 & W2 & W0 & W1).
  destruct (octets_split 16 8 input ltac:(lia) Hi) as [_ Hn].
  assert (Hc : call_ok e (Apply m)). { cbn [call_ok]. rewrite Lm. destruct He as [E|[E|E]]; rewrite E; reflexivity. }
  apply (known_block e _ _ _ _ {| l_bs := 64; l_blocks := 2 ^ 64 |}) in H; try assumption; [|split; assumption | reflexivity].
  cbn [cipher_ks] in H. rewrite whole_block in H.
  - rewrite (steal_chacha_ok n key input m ct Hk Hi).
    + rewrite C63_xchacha; try assumption.
      * rewrite (firstn_app_len input tail 16), (skipn_app_len input tail 16) by apply Hi. reflexivity.
      * destruct Hi as [Li Bi], Ht as [Lt Bt]. split; [rewrite app_length, Li, Lt; reflexivity | apply Forall_app; split; assumption].
    + rewrite H. unfold sp_djb_block, sp_djb_state. rewrite W2.
      assert (E0 : (sp_word input 0 + 2 ^ 32 * sp_word input 1) mod 2 ^ 32 = sp_word input 0) by (rewrite N.mul_comm, N.mod_add by discriminate; apply N.mod_small; exact W0).
      assert (E1 : (sp_word input 0 + 2 ^ 32 * sp_word input 1) / 2 ^ 32 = sp_word input 1) by (rewrite N.mul_comm, N.div_add by discriminate; rewrite N.div_small by exact W0; reflexivity).
      rewrite E0, E1. rewrite (N.mod_small (sp_word input 1)) by exact W1. reflexivity.
  - unfold sp_djb_block. rewrite serialize_length, sp_core_length; reflexivity.
Qed.
Print Assumptions C75_legacy.

(** Salsa20 and XSalsa20. *)
Lemma ss_sp_bytes w : ss_bytes w = sp_serialize w.
Proof.
  unfold ss_bytes, sp_serialize. apply flat_map_ext. intros x. unfold sp_byte. change (8 * 0) with 0. change (2 ^ 0) with 1. rewrite N.div_1_r. reflexivity.
Qed.
Lemma ss_sp_word b i : ss_littleendian b i = sp_word b i.
Proof. unfold ss_littleendian, sp_word. rewrite !(N.mul_comm (2 ^ _)). reflexivity. Qed.
Lemma ss_counter_octets i : octets 8 (ss_counter i).
Proof. split; [reflexivity|]. unfold ss_counter. cbn [map]. repeat (constructor; [apply N.mod_lt; discriminate|]). constructor. Qed.
Lemma ss_public key input : octets 32 key -> octets 16 input ->
  map (fun i => nth i (ss_words 16 (ss_expand_input key input)) 0) [0; 5; 10; 15; 6; 7; 8; 9]%nat = sp_constants ++ sp_words 4 input.
Proof.
  intros [Lk _] [Li _]. do 32 (destruct key as [|? key]; [discriminate Lk|]). destruct key; [|discriminate Lk].
  do 16 (destruct input as [|? input]; [discriminate Li|]). destruct input; [|discriminate Li].
  unfold ss_words, sp_words, ss_expand_input, ss_sigma, sp_constants, sp_words.
  cbn [seq map nth app firstn skipn list_ascii_of_string]. rewrite !ss_sp_word. reflexivity.
Qed.
Theorem C75_salsa e n key nonce q tail m ct h : env_ok e -> octets 32 key -> octets 8 nonce -> octets 8 tail -> octets 64 m ->
  cipher_run e (CSalsa n key nonce) [Seek (64 * q); Apply m] = Ok [Done; Bytes ct] -> Forall (call_ok e) h ->
  cipher_run e (CXSalsa n key (nonce ++ ss_counter q ++ tail)) h
  = cipher_run e (CSalsa n (steal_salsa (nonce ++ ss_counter q) m ct) tail) h.
Proof.
  intros He Hk Hn Ht [Lm Bm] H Hh.
  assert (Hc : call_ok e (Apply m)). { cbn [call_ok]. rewrite Lm. destruct He as [E|[E|E]]; rewrite E; reflexivity. }
  apply (known_block e _ _ _ _ {| l_bs := 64; l_blocks := 2 ^ 64 |}) in H; try assumption; [|split; assumption | reflexivity].
  cbn [cipher_ks] in H. destruct (ss_counter_octets q) as [Lq Bq].
  assert (Hi : octets 16 (nonce ++ ss_counter q)).
  { destruct Hn as [Ln Bn]. split; [rewrite app_length, Ln; reflexivity | apply Forall_app; split; assumption]. }
  assert (Hw : wf16 (ss_words 16 (ss_expand_input key (nonce ++ ss_counter q)))).
  { rewrite expand_words by (first [apply Hk | apply Hi]). apply s_matrix_wf; first [apply Hk | apply (words_of_bytes_length 4); apply Hi | apply words_of_bytes_wf; apply Hi]. }
  assert (L : List.length (ss_core n (ss_words 16 (ss_expand_input key (nonce ++ ss_counter q)))) = 16%nat).
  { unfold ss_core. rewrite map_length, combine_length, <- iter_s_spec by exact Hw. rewrite (proj1 (iter_s_wf _ _ Hw)). reflexivity. }
  rewrite whole_block in H.
  - rewrite C63_xsalsa; try assumption.
    + rewrite app_assoc, (firstn_app_len (nonce ++ ss_counter q) tail 16), (skipn_app_len (nonce ++ ss_counter q) tail 16) by apply Hi.
      f_equal. f_equal. symmetry.
      rewrite (proj1 (C35_hsalsa_from_core n key (nonce ++ ss_counter q) Hk Hi)). rewrite ss_sp_bytes. unfold steal_salsa. f_equal.
      rewrite <- (ss_public key (nonce ++ ss_counter q) Hk Hi). rewrite H. unfold ss_block, ss_hash. rewrite ss_sp_bytes.
      set (s := ss_words 16 (ss_expand_input key (nonce ++ ss_counter q))) in *.
      assert (W : Forall (fun w => w < 2 ^ 32) (ss_core n s)).
      { unfold ss_core. apply Forall_forall. intros x Hx. apply in_map_iff in Hx. destruct Hx as (p & <- & _). unfold ss_plus. apply N.mod_lt. discriminate. }
      set (core := ss_core n s) in *.
      assert (X : forall i p, (i < 16)%nat -> x_minus (sp_serialize core) (i, p) = (nth i core 0 + 2 ^ 32 - p) mod 2 ^ 32).
      { intros i p Hip. unfold x_minus. cbn [fst snd]. rewrite serialize_word by (first [exact W | rewrite L; exact Hip]). reflexivity. }
      clearbody core s. cbn [map combine]. rewrite !X by lia. reflexivity.
    + destruct Hi as [Li Bi], Ht as [Lt Bt]. rewrite app_assoc. split; [rewrite app_length, Li, Lt; reflexivity | apply Forall_app; split; assumption].
  - unfold ss_block, ss_hash. rewrite ss_sp_bytes, serialize_length, L. reflexivity.
Qed.
Print Assumptions C75_salsa.

(** ** Generators *)
Lemma byte_of_low q i : i <= 3 -> sp_byte (q mod 2 ^ 32) i = q / 2 ^ (8 * i) mod 2 ^ 8.
Proof.
  intros H. unfold sp_byte. apply N.bits_inj. intros b. destruct (N.lt_ge_cases b 8) as [Hb|Hb].
  - rewrite !N.mod_pow2_bits_low, !N.div_pow2_bits by exact Hb. rewrite N.mod_pow2_bits_low; [reflexivity | lia].
  - rewrite !N.mod_pow2_bits_high by exact Hb. reflexivity.
Qed.
Lemma le8_words q : sp_word (rg_le 8 q) 0 = q mod 2 ^ 32 /\ sp_word (rg_le 8 q) 1 = q / 2 ^ 32 mod 2 ^ 32.
Proof.
  split.
  - etransitivity; [|apply (word_of_bytes (q mod 2 ^ 32)); apply N.mod_lt; discriminate]. rewrite !byte_of_low by lia. reflexivity.
  - etransitivity; [|apply (word_of_bytes (q / 2 ^ 32 mod 2 ^ 32)); apply N.mod_lt; discriminate]. rewrite !byte_of_low by lia.
    rewrite !N.div_div by (try discriminate; apply N.pow_nonzero; discriminate). rewrite <- !N.pow_add_r. reflexivity.
Qed.
Lemma le_octets k x : octets k (rg_le k x).
Proof.
  split; [unfold rg_le; rewrite map_length, seq_length; reflexivity|]. unfold rg_le. apply Forall_forall. intros y Hy. apply in_map_iff in Hy.
  destruct Hy as (i & <- & _). apply N.mod_lt. discriminate.
Qed.
(** 64 bytes drawn at the beginning of block [q] of stream [s] do the same to XChaCha20
    with the seed as its key. *)
Theorem C75_generator e n c p ck seed s q tail : env_ok e -> octets 32 seed -> s < 2 ^ 64 -> q < 2 ^ 64 -> octets 8 tail ->
  exists r r' out, rng_from_seed seed = Ok r
  /\ rng_run (rng_gen c p n) ck r [SetStream s; SetWordPos (16 * q); Fill 64] = Ok ([Unit; Unit; Buf out], r')
  /\ forall h, Forall (call_ok e) h ->
     cipher_run e (CXChaCha n seed (rg_le 8 q ++ rg_le 8 s ++ tail)) h
     = cipher_run e (CChaCha Ietf n (steal_chacha (rg_le 8 q ++ rg_le 8 s) (repeat 0 64) out) ([0; 0; 0; 0] ++ tail)) h.
Proof.
  intros He Hk Hs Hq Ht. destruct (C22_fill_is_keystream n c p ck seed s (16 * q) 64 Hk Hs ltac:(lia)) as (r & r' & Er & Eh).
  eexists r, r', _. split; [exact Er|]. split; [exact Eh|]. intros h Hh.
  assert (Hi : octets 16 (rg_le 8 q ++ rg_le 8 s)).
  { destruct (le_octets 8 q) as [A B], (le_octets 8 s) as [C D]. split; [rewrite app_length, A, C; reflexivity | apply Forall_app; split; assumption]. }
  rewrite app_assoc. rewrite (steal_chacha_ok n seed (rg_le 8 q ++ rg_le 8 s)); [|exact Hk | exact Hi |].
  - rewrite C63_xchacha; try assumption.
    + rewrite (firstn_app_len (rg_le 8 q ++ rg_le 8 s) tail 16), (skipn_app_len (rg_le 8 q ++ rg_le 8 s) tail 16) by apply Hi. reflexivity.
    + destruct Hi as [Li Bi], Ht as [Lt Bt]. split; [rewrite app_length, Li, Lt; reflexivity | apply Forall_app; split; assumption].
  - replace (4 * (16 * q)) with (64 * q) by lia. fold (ks_range (cipher_ks (CChaCha Legacy n seed (rg_le 8 s))) (64 * q) 64).
    cbn [cipher_ks]. rewrite whole_block by (unfold sp_djb_block; rewrite serialize_length, sp_core_length; reflexivity).
    assert (Z : forall l, x_or (repeat 0 (List.length l)) l = l).
    { induction l as [|x l IH]; [reflexivity|]. unfold x_or in *. cbn [List.length repeat combine map fst snd]. rewrite IH, N.lxor_0_l. reflexivity. }
    specialize (Z (sp_djb_block n seed q (rg_le 8 s))). replace (List.length (sp_djb_block n seed q (rg_le 8 s))) with 64%nat in Z
      by (unfold sp_djb_block; rewrite serialize_length, sp_core_length; reflexivity).
    rewrite Z. unfold sp_djb_block, sp_djb_state. do 2 f_equal. f_equal. f_equal.
    destruct (le8_words q) as [W0 W1]. rewrite <- W0, <- W1. reflexivity.
Qed.
Print Assumptions C75_generator.

(** Both ends of one attack, on the portable code: 64 zero bytes under ChaCha20 at block 1,
    then a message under XChaCha20. *)
Definition cx_env : env := {| e_cfg := {| c_target := OtherTarget; c_backend := NoCfg; c_avx512 := false |}; e_cpu := {| has_avx512 := false; has_avx2 := false; has_sse2 := false |}; e_ck := true; e_usz := 64 |}.
Definition cx_input : list N := [1; 0; 0; 0] ++ map N.of_nat (seq 20 12).
Definition cx_ct : list N := match cipher_run cx_env (CChaCha Ietf 4 ex_key (skipn 4 cx_input)) [Seek 64; Apply (repeat 0 64)] with Ok [Done; Bytes ct] => ct | _ => [] end.
Example C75_satisfiable : octets 32 ex_key /\ octets 16 cx_input /\ sp_word cx_input 0 = 1 /\ List.length cx_ct = 64%nat
  /\ cipher_run cx_env (CXChaCha 4 ex_key (cx_input ++ repeat 9 8)) [Apply (map N.of_nat (seq 0 20))]
     = cipher_run cx_env (CChaCha Ietf 4 (steal_chacha cx_input (repeat 0 64) cx_ct) ([0; 0; 0; 0] ++ repeat 9 8)) [Apply (map N.of_nat (seq 0 20))]
  /\ cipher_run cx_env (CXChaCha 4 ex_key (cx_input ++ repeat 9 8)) [Apply (map N.of_nat (seq 0 20))]
     <> cipher_run cx_env (CXChaCha 4 ex_xkey (cx_input ++ repeat 9 8)) [Apply (map N.of_nat (seq 0 20))].
Proof. checks. Qed.
