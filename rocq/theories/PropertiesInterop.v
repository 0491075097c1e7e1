(** Final theorems C63 and C64: what different cipher types share, and what sharing a
    keystream gives away. *)
From Coq Require Import String.
From Verif Require Import Word Res WordLemmas Hex PropCommon SpecStream SpecChaCha SpecSalsa ChaChaCore ChaChaDispatch XChaCha
  Salsa Ciphers CipherWrapper WrapperProofs CiphersProofs StreamLemmas ChaChaDispatchProofs PropertiesChaCha PropertiesSalsa PropertiesStream.
From Coq Require Import ZArith Lia ZifyBool ZifyNat ZifyN.
Ltac Zify.zify_post_hook ::= Z.div_mod_to_equations.
Local Open Scope string_scope.
Local Open Scope N_scope.
Local Open Scope list_scope.

(** ** C63 *)
(** A 64-bit counter over an 8-byte nonce is a 32-bit counter over the 12-byte nonce
    made of the upper half of the counter and those 8 bytes. *)
Lemma word_of_bytes x : x < 2 ^ 32 ->
  sp_byte x 0 + sp_byte x 1 * 2 ^ 8 + sp_byte x 2 * 2 ^ 16 + sp_byte x 3 * 2 ^ 24 = x.
Proof.
  intros H. unfold sp_byte. change (8 * 0) with 0. change (8 * 1) with 8. change (8 * 2) with 16. change (8 * 3) with 24.
  change (2 ^ 0) with 1. change (2 ^ 8) with 256. rewrite N.div_1_r.
  assert (E1 : x / 2 ^ 16 = x / 256 / 256) by (rewrite N.div_div by discriminate; reflexivity).
  assert (E2 : x / 2 ^ 24 = x / 256 / 256 / 256) by (rewrite !N.div_div by discriminate; reflexivity).
  rewrite E1, E2. change (2 ^ 16) with (256 * 256). change (2 ^ 24) with (256 * 256 * 256).
  assert (H3 : x / 256 / 256 / 256 < 256).
  { rewrite !N.div_div by discriminate. apply N.div_lt_upper_bound; [discriminate|]. exact H. }
  pose proof (N.div_mod' x 256) as D0. pose proof (N.div_mod' (x / 256) 256) as D1. pose proof (N.div_mod' (x / 256 / 256) 256) as D2.
  rewrite (N.mod_small (x / 256 / 256 / 256)) by exact H3.
  revert D0 D1 D2. generalize (x mod 256) (x / 256 mod 256) (x / 256 / 256 mod 256) (x / 256 / 256 / 256) (x / 256 / 256) (x / 256).
  clear. intros. lia.
Qed.
Lemma djb_is_ietf dr key i iv : List.length iv = 8%nat ->
  sp_djb_block dr key i iv = sp_ietf_block dr key (i mod 2 ^ 32) (sp_serialize [(i / 2 ^ 32) mod 2 ^ 32] ++ iv).
Proof.
  intros H. unfold sp_djb_block, sp_ietf_block. f_equal. f_equal. unfold sp_djb_state, sp_ietf_state.
  f_equal. f_equal. rewrite N.mod_mod by discriminate. cbn [app]. f_equal.
  set (x := (i / 2 ^ 32) mod 2 ^ 32).
  assert (Hx : x < 2 ^ 32) by (apply N.mod_lt; discriminate).
  do 8 (destruct iv as [|? iv]; [discriminate H|]). destruct iv; [|discriminate H].
  unfold sp_serialize, sp_words. cbn [flat_map app seq map]. f_equal.
  unfold sp_word. cbn [nth Nat.mul Nat.add]. symmetry. apply word_of_bytes. exact Hx.
Qed.
Lemma serialize1_octets x : octets 4 (sp_serialize [x]).
Proof. split; [reflexivity|]. unfold sp_serialize. cbn [flat_map app]. repeat (constructor; [apply N.mod_lt; discriminate|]). constructor. Qed.

(** Byte [p] of the keystream of [ChaCha20Legacy] (any [p], the counter wrapping). *)
Theorem C63_byte n key iv p : octets 8 iv ->
  cipher_ks (CChaCha Legacy n key iv) p
  = cipher_ks (CChaCha Ietf n key (sp_serialize [(p / 2 ^ 38) mod 2 ^ 32] ++ iv)) (p mod 2 ^ 38).
Proof.
  intros [Hi _]. cbn [cipher_ks]. unfold ks_of_blocks. rewrite djb_is_ietf by exact Hi.
  assert (E1 : p / 64 / 2 ^ 32 = p / 2 ^ 38) by (rewrite N.div_div by discriminate; reflexivity).
  assert (E2 : p mod 2 ^ 38 = 64 * ((p / 64) mod 2 ^ 32) + p mod 64).
  { change (2 ^ 38) with (64 * 2 ^ 32). rewrite N.mod_mul_r by discriminate. lia. }
  rewrite E1, E2. f_equal.
  - f_equal. rewrite N.add_comm, N.mul_comm, N.mod_add by discriminate. rewrite N.mod_mod by discriminate. reflexivity.
  - f_equal. rewrite N.add_comm, N.mul_comm, N.div_add by discriminate.
    rewrite (N.div_small (p mod 64)) by (apply N.mod_lt; discriminate). reflexivity.
Qed.
Print Assumptions C63_byte.

(** Two keystreams that agree on a range both machines may use give the same answers. *)
Lemma granted_small l p m : 1 < l_blocks l -> l_bs l = 64 -> p + m <= l_usable l -> granted l p m = true.
Proof.
  intros Hb Hs H. unfold granted. cbv zeta. unfold l_period, l_usable in *. rewrite Hs in *.
  assert (p mod (64 * l_blocks l) = p) as -> by (apply N.mod_small; lia).
  destruct (p <=? 64 * (l_blocks l - 1)) eqn:E; apply N.leb_le; lia.
Qed.
Lemma ks_xor_agree ks1 ks2 p1 p2 d : (forall i, i < N.of_nat (List.length d) -> ks1 (p1 + i) = ks2 (p2 + i)) ->
  ks_xor ks1 p1 d = ks_xor ks2 p2 d.
Proof.
  intros H. unfold ks_xor. f_equal. f_equal. unfold ks_range. apply map_ext_in. intros i Hi. apply in_seq in Hi.
  apply H. lia.
Qed.
Lemma spec_agree ks1 ks2 l1 l2 s1 s2 chunks : 1 < l_blocks l1 -> l_bs l1 = 64 -> 1 < l_blocks l2 -> l_bs l2 = 64 ->
  forall p1 p2, (forall i, i < N.of_nat (List.length (concat chunks)) -> ks1 (p1 + i) = ks2 (p2 + i)) ->
  p1 + N.of_nat (List.length (concat chunks)) <= l_usable l1 -> p2 + N.of_nat (List.length (concat chunks)) <= l_usable l2 ->
  expect (run_spec ks1 (Some l1) s1 p1 (map Apply chunks)) = expect (run_spec ks2 (Some l2) s2 p2 (map Apply chunks)).
Proof.
  intros A1 B1 A2 B2. induction chunks as [|d ch IH]; intros p1 p2 Hk H1 H2; [reflexivity|].
  cbn [concat] in *. rewrite app_length, Nat2N.inj_add in *. cbn [map run_spec step_spec].
  rewrite !granted_small by (try assumption; lia).
  specialize (IH (p1 + N.of_nat (List.length d)) (p2 + N.of_nat (List.length d))).
  rewrite (ks_xor_agree ks1 ks2 p1 p2 d) by (intros i Hi; apply Hk; lia).
  assert (E : expect (run_spec ks1 (Some l1) s1 (p1 + N.of_nat (List.length d)) (map Apply ch))
            = expect (run_spec ks2 (Some l2) s2 (p2 + N.of_nat (List.length d)) (map Apply ch))).
  { apply IH; [|lia|lia]. intros i Hi. rewrite <- !N.add_assoc. apply Hk. lia. }
  destruct (run_spec ks1 _ _ _ (map Apply ch)) as [[r1 q1]|], (run_spec ks2 _ _ _ (map Apply ch)) as [[r2 q2]|];
    cbn [expect] in E |- *; try discriminate E; congruence.
Qed.

(** Encrypting with [ChaCha20Legacy] from position [q * 2^38 + p], in any chunks, is
    encrypting with [ChaCha20] under the nonce [le32 q ++ iv] from position [p], as long
    as the message ends within what [ChaCha20] allows. *)
Theorem C63_legacy_is_ietf e n key iv q p chunks : env_ok e -> octets 32 key -> octets 8 iv ->
  Forall (short e) chunks -> q < 2 ^ 32 -> p + N.of_nat (List.length (concat chunks)) <= 64 * (2 ^ 32 - 1) ->
  cipher_run e (CChaCha Legacy n key iv) (Seek (q * 2 ^ 38 + p) :: map Apply chunks)
  = cipher_run e (CChaCha Ietf n key (sp_serialize [q] ++ iv)) (Seek p :: map Apply chunks).
Proof.
  intros He Hk Hi Hs Hq Hp.
  assert (Hn : octets 12 (sp_serialize [q] ++ iv)).
  { destruct (serialize1_octets q) as [L B], Hi as [Li Bi]. split; [rewrite app_length, L, Li; reflexivity|apply Forall_app; split; assumption]. }
  assert (Hcalls : forall x, Forall (call_ok e) (Seek x :: map Apply chunks)).
  { intros x. constructor; [exact I|apply short_calls; exact Hs]. }
  rewrite !cipher_run_ok by (try assumption; try apply Hcalls; split; assumption).
  cbn [cipher_lim cipher_strict run_spec step_spec l_bs l_blocks andb].
  assert (L1 : (q * 2 ^ 38 + p) / 64 <? 2 ^ 64 = true).
  { apply N.ltb_lt. apply N.div_lt_upper_bound; [discriminate|].
    change (64 * 2 ^ 64) with 1180591620717411303424. change (2 ^ 32) with 4294967296 in *. change (2 ^ 38) with 274877906944. lia. }
  assert (L2 : p / 64 <? 2 ^ 32 = true).
  { apply N.ltb_lt. apply N.div_lt_upper_bound; [discriminate|]. change (2 ^ 32) with 4294967296 in *. lia. }
  rewrite L1, L2.
  assert (E : expect (run_spec (cipher_ks (CChaCha Legacy n key iv)) (Some {| l_bs := 64; l_blocks := 2 ^ 64 |}) false (q * 2 ^ 38 + p) (map Apply chunks))
            = expect (run_spec (cipher_ks (CChaCha Ietf n key (sp_serialize [q] ++ iv))) (Some {| l_bs := 64; l_blocks := 2 ^ 32 |}) false p (map Apply chunks))).
  { apply spec_agree; try reflexivity.
    - intros i Hlt. rewrite C63_byte by exact Hi.
      assert (Hsm : p + i < 2 ^ 38) by (change (2 ^ 32) with 4294967296 in *; change (2 ^ 38) with 274877906944; lia).
      replace (q * 2 ^ 38 + p + i) with (p + i + q * 2 ^ 38) by lia.
      rewrite N.mod_add, N.div_add by discriminate. rewrite (N.mod_small (p + i)), (N.div_small (p + i)) by exact Hsm.
      rewrite N.add_0_l, (N.mod_small q) by exact Hq. reflexivity.
    - unfold l_usable. cbn [l_bs l_blocks]. change (2 ^ 64 - 1) with 18446744073709551615.
      change (2 ^ 32) with 4294967296 in *. change (2 ^ 38) with 274877906944. lia.
    - exact Hp. }
  destruct (run_spec (cipher_ks (CChaCha Legacy n key iv)) _ _ _ _) as [[r1 q1]|], (run_spec (cipher_ks (CChaCha Ietf n key _)) _ _ _ _) as [[r2 q2]|];
    cbn [expect] in E |- *; try discriminate E; congruence.
Qed.
Print Assumptions C63_legacy_is_ietf.

(** The extended-nonce types are the plain ones under the public [hchacha]/[hsalsa]
    subkey: the same answers to every history of calls, end of keystream and all. *)
Theorem C63_xchacha e n key iv h : env_ok e -> octets 32 key -> octets 24 iv -> Forall (call_ok e) h ->
  cipher_run e (CXChaCha n key iv) h
  = cipher_run e (CChaCha Ietf n (hchacha n key (firstn 16 iv)) ([0; 0; 0; 0] ++ skipn 16 iv)) h.
Proof.
  intros He Hk [Hl Hb] Hh.
  assert (H16 : octets 16 (firstn 16 iv)) by (split; [rewrite firstn_length, Hl; reflexivity|apply bytes_firstn; exact Hb]).
  rewrite C12_hchacha by assumption.
  rewrite !cipher_run_ok; [reflexivity| | | | | |]; try assumption; [|split; [assumption|split; assumption]].
  split.
  - rewrite <- C12_hchacha by assumption. split; [apply hchacha_length|apply hchacha_bytes]; try apply Hk; apply H16.
  - split; [rewrite app_length, skipn_length, Hl; reflexivity|]. apply Forall_app.
    split; [repeat constructor|apply bytes_skipn; exact Hb].
Qed.
Print Assumptions C63_xchacha.
Theorem C63_xsalsa e n key iv h : env_ok e -> octets 32 key -> octets 24 iv -> Forall (call_ok e) h ->
  cipher_run e (CXSalsa n key iv) h = cipher_run e (CSalsa n (hsalsa n key (firstn 16 iv)) (skipn 16 iv)) h.
Proof. intros _ _ _ _. reflexivity. Qed.
Print Assumptions C63_xsalsa.
(** XChaCha is also [ChaCha20Legacy] under the subkey and the last 8 nonce bytes, for
    every message [XChaCha] accepts. *)
Theorem C63_xchacha_is_legacy e n key iv chunks : env_ok e -> octets 32 key -> octets 24 iv ->
  Forall (short e) chunks -> N.of_nat (List.length (concat chunks)) <= 64 * (2 ^ 32 - 1) ->
  cipher_run e (CXChaCha n key iv) (Seek 0 :: map Apply chunks)
  = cipher_run e (CChaCha Legacy n (hchacha n key (firstn 16 iv)) (skipn 16 iv)) (Seek 0 :: map Apply chunks).
Proof.
  intros He Hk Hi Hs Hl.
  assert (H16 : octets 16 (firstn 16 iv)) by (split; [rewrite firstn_length, (proj1 Hi); reflexivity|apply bytes_firstn, Hi]).
  rewrite C63_xchacha; [|assumption|assumption|assumption|constructor; [exact I|apply short_calls; exact Hs]].
  symmetry. apply (C63_legacy_is_ietf e n (hchacha n key (firstn 16 iv)) (skipn 16 iv) 0 0 chunks); [assumption| | |assumption|reflexivity|assumption].
  - split; [apply hchacha_length|apply hchacha_bytes]; try apply Hk; apply H16.
  - split; [rewrite skipn_length, (proj1 Hi); reflexivity|apply bytes_skipn, Hi].
Qed.
Print Assumptions C63_xchacha_is_legacy.
(** ... and no further: 64 bytes past the last block [XChaCha] grants, [XChaCha] answers
    [Err] where [ChaCha20Legacy] goes on. *)
Theorem C63_end e n key iv d : env_ok e -> octets 32 key -> octets 24 iv -> List.length d = 1%nat ->
  cipher_run e (CXChaCha n key iv) [Seek (64 * (2 ^ 32 - 1)); Apply d] = Ok [Done; Err]
  /\ cipher_run e (CChaCha Legacy n (hchacha n key (firstn 16 iv)) (skipn 16 iv)) [Seek (64 * (2 ^ 32 - 1)); Apply d]
     = Ok [Done; Bytes (xored (CChaCha Legacy n (hchacha n key (firstn 16 iv)) (skipn 16 iv)) (64 * (2 ^ 32 - 1)) d)].
Proof.
  intros He Hk Hi Hd.
  assert (H16 : octets 16 (firstn 16 iv)) by (split; [rewrite firstn_length, (proj1 Hi); reflexivity|apply bytes_firstn, Hi]).
  assert (Hh : octets 32 (hchacha n key (firstn 16 iv))).
  { split; [apply hchacha_length|apply hchacha_bytes]; try apply Hk; apply H16. }
  assert (H8 : octets 8 (skipn 16 iv)) by (split; [rewrite skipn_length, (proj1 Hi); reflexivity|apply bytes_skipn, Hi]).
  assert (Hc : Forall (call_ok e) [Seek (64 * (2 ^ 32 - 1)); Apply d]).
  { constructor; [exact I|]. constructor; [|constructor]. cbn [call_ok]. rewrite Hd.
    destruct He as [-> | [-> | ->]]; reflexivity. }
  rewrite !cipher_run_ok by (try assumption; split; assumption).
  cbn [cipher_lim cipher_strict run_spec step_spec l_bs l_blocks andb]. rewrite Hd.
  split; reflexivity.
Qed.
Print Assumptions C63_end.

(** ** C64 *)
(** Byte-wise XOR of two messages. *)
Definition bxor (a b : list N) : list N := map (fun x => N.lxor (fst x) (snd x)) (combine a b).
Lemma bxor_cons x a y b : bxor (x :: a) (y :: b) = N.lxor x y :: bxor a b.
Proof. reflexivity. Qed.
Lemma bxor_length a b : List.length a = List.length b -> List.length (bxor a b) = List.length a.
Proof. intros H. unfold bxor. rewrite map_length, combine_length, <- H. apply Nat.min_id. Qed.
Lemma ks_xor_bxor ks p m : ks_xor ks p m = bxor m (ks_range ks p (List.length m)).
Proof. reflexivity. Qed.
Lemma bxor_pad m1 : forall m2 k, List.length m1 = List.length k -> List.length m2 = List.length k ->
  bxor (bxor m1 k) (bxor m2 k) = bxor m1 m2.
Proof.
  induction m1 as [|x m1 IH]; intros [|y m2] [|z k] H1 H2; cbn in H1, H2; try discriminate; [reflexivity|].
  rewrite !bxor_cons. f_equal; [|apply IH; congruence].
  rewrite (N.lxor_comm y z), N.lxor_assoc, <- (N.lxor_assoc z z y), N.lxor_nilpotent, N.lxor_0_l. reflexivity.
Qed.
Lemma bxor_swap m : forall d k, List.length d = List.length m -> List.length k = List.length m ->
  bxor (bxor m d) k = bxor (bxor m k) d.
Proof.
  induction m as [|x m IH]; intros [|y d] [|z k] H1 H2; cbn in H1, H2; try discriminate; [reflexivity|].
  rewrite !bxor_cons. f_equal; [|apply IH; congruence]. rewrite !N.lxor_assoc. f_equal. apply N.lxor_comm.
Qed.
Lemma bxor_back m : forall k, List.length k = List.length m -> bxor m (bxor m k) = k.
Proof.
  induction m as [|x m IH]; intros [|z k] H; cbn in H; try discriminate; [reflexivity|].
  rewrite !bxor_cons. f_equal; [|apply IH; congruence]. rewrite <- N.lxor_assoc, N.lxor_nilpotent, N.lxor_0_l. reflexivity.
Qed.

(** Flipping the bits [d] of a message, after any history and before any other, flips
    exactly those bits of the output and changes no other answer. *)
Theorem C64_malleable e c h m d h' r o r' : env_ok e -> cipher_ok c ->
  Forall (call_ok e) (h ++ Apply m :: h') -> List.length d = List.length m -> List.length r = List.length h ->
  cipher_run e c (h ++ Apply m :: h') = Ok (r ++ Bytes o :: r') ->
  cipher_run e c (h ++ Apply (bxor m d) :: h') = Ok (r ++ Bytes (bxor o d) :: r').
Proof.
  intros He Hc Hh Hd Hr R.
  assert (Hl : List.length (bxor m d) = List.length m) by (apply bxor_length; congruence).
  assert (Hh2 : Forall (call_ok e) (h ++ Apply (bxor m d) :: h')).
  { apply Forall_app in Hh as [A B]. inversion B as [|? ? B1 B2]; subst. apply Forall_app. split; [exact A|].
    constructor; [|exact B2]. cbn [call_ok] in *. rewrite Hl. exact B1. }
  rewrite cipher_run_ok in R |- * by assumption. rewrite run_spec_app in R |- *. cbn [run_spec step_spec] in R |- *.
  destruct (run_spec _ _ _ 0 h) as [[rs p]|] eqn:E; [|discriminate R].
  pose proof (run_spec_length _ _ _ _ _ _ _ E) as Hlen. rewrite Hl.
  assert (Happ : forall (a b : list ret) x y, List.length a = List.length b -> a ++ x = b ++ y -> a = b /\ x = y).
  { clear. induction a as [|u a IH]; intros [|v b] x y L H; cbn in L, H; try discriminate; [split; [reflexivity|exact H]|].
    injection H as -> H. destruct (IH b x y) as [-> ->]; [congruence|exact H|]. split; reflexivity. }
  destruct (match cipher_lim c with None => true | Some l => granted l p (N.of_nat (List.length m)) end).
  - destruct (run_spec _ _ _ (p + N.of_nat (List.length m)) h') as [[rs2 p2]|]; [|discriminate R].
    cbn [expect] in R |- *. injection R as R. apply Happ in R as [-> R]; [|congruence]. injection R as <- <-.
    do 4 f_equal. rewrite !ks_xor_bxor, Hl. apply bxor_swap; [exact Hd|apply ks_range_length].
  - destruct (run_spec _ _ _ p h') as [[rs2 p2]|]; [|discriminate R]. cbn [expect] in R. injection R as R.
    apply Happ in R as [_ R]; [|congruence]. discriminate R.
Qed.
Print Assumptions C64_malleable.

Lemma last_apply e c h m r o : env_ok e -> cipher_ok c -> Forall (call_ok e) (h ++ [Apply m]) ->
  cipher_run e c (h ++ [Apply m]) = Ok (r ++ [Bytes o]) -> o = xored c (track 0 h r) m.
Proof.
  intros He Hc Hh R. rewrite cipher_run_ok in R by assumption. rewrite run_spec_app in R. cbn [run_spec step_spec] in R.
  destruct (run_spec _ _ _ 0 h) as [[rs p]|] eqn:E; [|discriminate R].
  pose proof (track_spec _ _ _ _ _ _ _ E) as T.
  destruct (match cipher_lim c with None => true | Some l => granted l p (N.of_nat (List.length m)) end);
    cbn [expect] in R; injection R as R; apply app_inj_tail in R as [<- R]; [|discriminate R].
  injection R as <-. rewrite T. reflexivity.
Qed.
Lemma last_write e c h n r o : env_ok e -> cipher_ok c -> Forall (call_ok e) (h ++ [Write n]) ->
  cipher_run e c (h ++ [Write n]) = Ok (r ++ [Bytes o]) -> o = ks_range (cipher_ks c) (track 0 h r) n.
Proof.
  intros He Hc Hh R. rewrite cipher_run_ok in R by assumption. rewrite run_spec_app in R. cbn [run_spec step_spec] in R.
  destruct (run_spec _ _ _ 0 h) as [[rs p]|] eqn:E; [|discriminate R].
  pose proof (track_spec _ _ _ _ _ _ _ E) as T.
  destruct (match cipher_lim c with None => true | Some l => granted l p (N.of_nat n) end);
    cbn [expect] in R; injection R as R; apply app_inj_tail in R as [<- R]; [|discriminate R].
  injection R as <-. rewrite T. reflexivity.
Qed.
(** Two messages encrypted at the same position under the same key and nonce, whatever
    the builds, CPUs and histories: the XOR of the ciphertexts is that of the messages. *)
Theorem C64_two_time_pad e1 e2 c h1 h2 m1 m2 r1 r2 o1 o2 : env_ok e1 -> env_ok e2 -> cipher_ok c ->
  Forall (call_ok e1) (h1 ++ [Apply m1]) -> Forall (call_ok e2) (h2 ++ [Apply m2]) ->
  cipher_run e1 c (h1 ++ [Apply m1]) = Ok (r1 ++ [Bytes o1]) ->
  cipher_run e2 c (h2 ++ [Apply m2]) = Ok (r2 ++ [Bytes o2]) ->
  track 0 h1 r1 = track 0 h2 r2 -> List.length m1 = List.length m2 ->
  bxor o1 o2 = bxor m1 m2.
Proof.
  intros He1 He2 Hc Hh1 Hh2 R1 R2 T L. apply last_apply in R1, R2; try assumption. subst o1 o2. rewrite T.
  change (bxor (ks_xor (cipher_ks c) (track 0 h2 r2) m1) (ks_xor (cipher_ks c) (track 0 h2 r2) m2) = bxor m1 m2).
  rewrite !ks_xor_bxor, L. apply bxor_pad; rewrite ks_range_length; congruence.
Qed.
Print Assumptions C64_two_time_pad.
(** One known plaintext gives the keystream the cipher itself would write there. *)
Theorem C64_known_plaintext e1 e2 c h1 h2 m r1 r2 o k : env_ok e1 -> env_ok e2 -> cipher_ok c ->
  Forall (call_ok e1) (h1 ++ [Apply m]) -> Forall (call_ok e2) (h2 ++ [Write (List.length m)]) ->
  cipher_run e1 c (h1 ++ [Apply m]) = Ok (r1 ++ [Bytes o]) ->
  cipher_run e2 c (h2 ++ [Write (List.length m)]) = Ok (r2 ++ [Bytes k]) ->
  track 0 h1 r1 = track 0 h2 r2 -> bxor m o = k.
Proof.
  intros He1 He2 Hc Hh1 Hh2 R1 R2 T. apply last_apply in R1; try assumption. apply last_write in R2; try assumption. subst o k. rewrite T.
  change (bxor m (ks_xor (cipher_ks c) (track 0 h2 r2) m) = ks_range (cipher_ks c) (track 0 h2 r2) (List.length m)).
  rewrite ks_xor_bxor. apply bxor_back. apply ks_range_length.
Qed.
Print Assumptions C64_known_plaintext.

(** ** The hypotheses are satisfiable *)
(** Byte 2^38 * 7 + 70 of the legacy keystream, reached on both sides. *)
Example C63_satisfiable :
  octets 32 ex_key /\ octets 8 ex_nonce8 /\ octets 24 ex_nonce24 /\ Forall (short ex_env) ex_chunks
  /\ 70 + N.of_nat (List.length (concat ex_chunks)) <= 64 * (2 ^ 32 - 1)
  /\ cipher_run ex_env (CChaCha Legacy 4 ex_key ex_nonce8) [Seek (7 * 2 ^ 38 + 70); Apply [1; 2; 3]]
     = cipher_run ex_env (CChaCha Ietf 4 ex_key (hex "07000000" ++ ex_nonce8)) [Seek 70; Apply [1; 2; 3]].
Proof.
  split; [checks|]. split; [checks|]. split; [checks|]. split; [repeat constructor; vm_compute; reflexivity|].
  split; [vm_compute; discriminate|]. vm_compute. reflexivity.
Qed.
(** Different upper halves of the counter give different keystreams. *)
Example C63_not_constant :
  cipher_run ex_env (CChaCha Legacy 4 ex_key ex_nonce8) [Seek (7 * 2 ^ 38); Write 4]
  <> cipher_run ex_env (CChaCha Legacy 4 ex_key ex_nonce8) [Seek 0; Write 4].
Proof. vm_compute. discriminate. Qed.
Example C64_satisfiable : let c := CSalsa 4 ex_key ex_nonce8 in
  exists r o1 o2, cipher_run ex_env c ([Write 60; Seek 3] ++ [Apply [1; 2; 3]]) = Ok (r ++ [Bytes o1])
  /\ cipher_run ex_env2 c ([Apply [9; 9; 9]] ++ [Apply [7; 0; 255]]) = Ok ([Bytes (xored c 0 [9; 9; 9])] ++ [Bytes o2])
  /\ track 0 [Write 60; Seek 3] r = track 0 [Apply [9; 9; 9]] [Bytes (xored c 0 [9; 9; 9])]
  /\ bxor o1 o2 = [6; 2; 252].
Proof.
  cbv zeta. exists [Bytes (xored (CSalsa 4 ex_key ex_nonce8) 0 (repeat 0 60)); Done].
  exists (xored (CSalsa 4 ex_key ex_nonce8) 3 [1; 2; 3]), (xored (CSalsa 4 ex_key ex_nonce8) 3 [7; 0; 255]).
  vm_compute. split; [reflexivity|]. split; [reflexivity|]. split; reflexivity.
Qed.
