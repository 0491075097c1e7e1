(** Final theorem C93: further protocols that take their keystream from these crates.

    C81 covers the AEAD constructions to which [chacha20/README.md:32-33] points.  Here: the header
    protection of QUIC (RFC 9001 section 5.4.4), the packets of
    [chacha20-poly1305@openssh.com] (OpenSSH's PROTOCOL.chacha20poly1305), the messages and
    the rekeying of libsodium's [crypto_secretstream_xchacha20poly1305], the stream part of
    Adiantum, the [arcfour128] of RFC 4345, and the nonces of TLS 1.3, WireGuard and SSH.

    The protocols are written from those documents, on top of the block functions of RFC 8439
    ([SpecChaCha.v]) and of C81's reading of its section 2.4 ([ae_message]); the theorems say
    which calls on the cipher types compute them and where the calls are refused. *)
From Coq Require Import String.
From Verif Require Import Word Res WordLemmas Hex PropCommon SpecStream SpecChaCha SpecRC4 ChaChaCore ChaChaProofs ChaChaDispatch XChaCha ChaChaDispatchProofs Ciphers
  CipherWrapper WrapperProofs CiphersProofs StreamLemmas Rc4Proofs PropertiesStream PropertiesCross PropertiesAead BlockApi PropertiesBlockApi
  SeekNum Panics PropertiesPanics PropertiesPermutation Fast.
From Coq Require Import ZArith Lia ZifyBool ZifyNat ZifyN.
Ltac Zify.zify_post_hook ::= Z.div_mod_to_equations.
Local Open Scope string_scope.
Local Open Scope N_scope.
Local Open Scope list_scope.

(** ** Numbers as bytes *)
(** [k] bytes of [x], least significant first; network order is the reverse. *)
Definition pr_le (k : nat) (x : N) : list N := map (fun i => (x / 256 ^ N.of_nat i) mod 256) (seq 0 k).
Definition pr_be (k : nat) (x : N) : list N := rev (pr_le k x).
Fixpoint pr_num (l : list N) : N := match l with [] => 0 | b :: l => b + 256 * pr_num l end.
Lemma pr_le_S k x : pr_le (S k) x = x mod 256 :: pr_le k (x / 256).
Proof.
  unfold pr_le. cbn [seq map]. change (256 ^ N.of_nat 0) with 1. rewrite N.div_1_r. f_equal.
  rewrite <- seq_shift, map_map. apply map_ext. intros i. rewrite Nat2N.inj_succ, N.pow_succ_r' , N.div_div; [reflexivity | lia | apply N.pow_nonzero; lia].
Qed.
Lemma pr_num_le k : forall x, pr_num (pr_le k x) = x mod 256 ^ N.of_nat k.
Proof.
  induction k as [|k IH]; intros x; [cbn; rewrite N.mod_1_r; reflexivity|].
  rewrite pr_le_S. cbn [pr_num]. rewrite IH. rewrite Nat2N.inj_succ, N.pow_succ_r'.
  rewrite N.mod_mul_r by (try apply N.pow_nonzero; lia). reflexivity.
Qed.
Lemma pr_le_octets k x : octets k (pr_le k x).
Proof.
  split; [unfold pr_le; rewrite map_length, seq_length; reflexivity|].
  apply Forall_forall. intros b Hb. apply in_map_iff in Hb. destruct Hb as [i [<- _]]. apply N.mod_lt. lia.
Qed.
Lemma pr_be_octets k x : octets k (pr_be k x).
Proof. destruct (pr_le_octets k x) as [L B]. split; unfold pr_be; [rewrite rev_length; exact L | apply Forall_rev, B]. Qed.
Lemma pr_le_inj k i j : i < 256 ^ N.of_nat k -> j < 256 ^ N.of_nat k -> pr_le k i = pr_le k j -> i = j.
Proof. intros Hi Hj E. apply (f_equal pr_num) in E. rewrite !pr_num_le, !N.mod_small in E by assumption. exact E. Qed.
Lemma pr_be_inj k i j : i < 256 ^ N.of_nat k -> j < 256 ^ N.of_nat k -> pr_be k i = pr_be k j -> i = j.
Proof. intros Hi Hj E. apply (pr_le_inj k); try assumption. apply (f_equal (@rev N)) in E. unfold pr_be in E. rewrite !rev_involutive in E. exact E. Qed.

(** ** Steps of a cipher with [M] blocks of 64 bytes *)
Section Steps.
  Context (ks : N -> N) (M : N) (HM : 1 < M).
  Let lim := Some {| l_bs := 64; l_blocks := M |}.
  Lemma st_apply p d : p + N.of_nat (List.length d) <= 64 * (M - 1) ->
    step_spec ks lim false p (Apply d) = Some (Bytes (ks_xor ks p d), p + N.of_nat (List.length d)).
  Proof.
    intros H. unfold lim. cbn [step_spec]. unfold granted, l_period, l_usable. cbn [l_bs l_blocks].
    rewrite (N.mod_small p) by lia. replace (p <=? 64 * (M - 1)) with true by (symmetry; apply N.leb_le; lia).
    apply N.leb_le in H. rewrite H. reflexivity.
  Qed.
  Lemma st_refused p d : p <= 64 * (M - 1) -> 64 * (M - 1) < p + N.of_nat (List.length d) ->
    step_spec ks lim false p (Apply d) = Some (Err, p).
  Proof.
    intros H0 H. unfold lim. cbn [step_spec]. unfold granted, l_period, l_usable. cbn [l_bs l_blocks].
    rewrite (N.mod_small p) by lia. replace (p <=? 64 * (M - 1)) with true by (symmetry; apply N.leb_le; lia).
    apply N.leb_gt in H. rewrite H. reflexivity.
  Qed.
  Lemma st_seek p q : q <= 64 * (M - 1) -> step_spec ks lim false p (Seek q) = Some (Done, q).
  Proof.
    intros H. unfold lim. cbn [step_spec l_bs l_blocks andb].
    replace (q / 64 <? M) with true; [reflexivity|]. symmetry. apply N.ltb_lt. apply N.div_lt_upper_bound; lia.
  Qed.
End Steps.

(** ** QUIC header protection *)
(** RFC 9001 section 5.4.4: "The first 4 bytes of the sampled ciphertext are the block
    counter. (...) The remaining 12 bytes are used as the nonce. (...) counter = sample[0..3],
    nonce = sample[4..15], mask = ChaCha20(hp_key, counter, nonce, {0,0,0,0,0})", the counter
    little-endian. *)
Definition qu_counter (sample : list N) : N := pr_num (firstn 4 sample).
Definition qu_nonce (sample : list N) : list N := skipn 4 sample.
Definition qu_mask (n : nat) (key sample : list N) : list N :=
  ae_message (fun i => sp_ietf_block n key i (qu_nonce sample)) (qu_counter sample) (repeat 0 5).

Lemma qu_nonce_ok sample : octets 16 sample -> octets 12 (qu_nonce sample).
Proof. intros [L B]. split; [unfold qu_nonce; rewrite skipn_length, L; reflexivity | apply bytes_skipn, B]. Qed.
Lemma pr_num_lt k l : octets k l -> pr_num l < 256 ^ N.of_nat k.
Proof.
  intros [L B]. subst k. induction B as [|b l Hb B IH]; [reflexivity|]. cbn [pr_num List.length]. rewrite Nat2N.inj_succ, N.pow_succ_r'. lia.
Qed.
Lemma qu_counter_lt sample : octets 16 sample -> qu_counter sample < 2 ^ 32.
Proof.
  intros [L B]. unfold qu_counter. change (2 ^ 32) with (256 ^ N.of_nat 4). apply pr_num_lt.
  split; [rewrite firstn_length, L; reflexivity | apply bytes_firstn, B].
Qed.
(** The mask bytes are those of one block. *)
Lemma qu_mask_block n key sample : qu_mask n key sample = firstn 5 (sp_ietf_block n key (qu_counter sample) (qu_nonce sample)).
Proof.
  set (blk := fun i => sp_ietf_block n key i (qu_nonce sample)). change (sp_ietf_block n key (qu_counter sample) (qu_nonce sample)) with (blk (qu_counter sample)).
  unfold qu_mask. fold blk. assert (H : forall i, List.length (blk i) = 64%nat) by (intros i; apply ietf_64).
  rewrite ae_message_ok by exact H. rewrite ks_xor_zeros. rewrite <- (whole_block blk) by apply H. symmetry. apply ks_range_firstn. lia.
Qed.

(** ** OpenSSH *)
(** PROTOCOL.chacha20poly1305: of the 64 bytes of key material the first 32 are K_2, the
    others K_1; the nonce is the packet sequence number in SSH's wire encoding; the length
    field is encrypted under K_1 with block counter 0, the Poly1305 key comes from K_2 with
    block counter 0, and the payload is encrypted under K_2 from block counter 1 on.  The
    block counter has 64 bits. *)
Definition ssh_blk (n : nat) (key : list N) (seqno : N) (i : N) : list N := sp_djb_block n key i (pr_be 8 seqno).
Definition ssh_packet (n : nat) (material : list N) (seqno : N) (len payload : list N) : list N * list N * list N :=
  let K2 := firstn 32 material in let K1 := skipn 32 material in
  (ae_message (ssh_blk n K1 seqno) 0 len, ae_poly_key (ssh_blk n K2 seqno), ae_message (ssh_blk n K2 seqno) 1 payload).
Lemma djb_64 n key c iv : List.length (sp_djb_block n key c iv) = 64%nat.
Proof. unfold sp_djb_block. rewrite serialize_length, sp_core_length; reflexivity. Qed.

(** ** libsodium's secretstream *)
(** The 24-byte header gives a subkey (HChaCha20 of its first 16 bytes) and an 8-byte
    "inonce"; message number [ctr] uses the 12-byte nonce [ctr || inonce]; block 0 is the
    Poly1305 key's, block 1 encrypts a 64-byte block holding the tag, the message follows
    from block 2 on.  Rekeying encrypts key and inonce from block 0 on. *)
Definition st_key (n : nat) (key header : list N) : list N := sp_hchacha n key (firstn 16 header).
Definition st_nonce (header : list N) (ctr : N) : list N := pr_le 4 ctr ++ skipn 16 header.
Definition st_push (n : nat) (key header : list N) (ctr tag : N) (msg : list N) : list N * list N * list N :=
  let blk i := sp_ietf_block n (st_key n key header) i (st_nonce header ctr) in
  (ae_message blk 0 (repeat 0 64), ae_message blk 1 (tag :: repeat 0 63), ae_message blk 2 msg).

(** ** Nonces *)
(** WireGuard (section 5.4.6 of its paper): 4 zero bytes and the 64-bit counter, little-endian.
    TLS 1.3 (RFC 8446 section 5.3): the record number, padded to the left with zeros to 12
    bytes, XORed with the IV. *)
Definition wg_nonce (i : N) : list N := repeat 0 4 ++ pr_le 8 i.
Definition tls_nonce (iv : list N) (i : N) : list N := map (fun x => N.lxor (fst x) (snd x)) (combine iv (repeat 0 4 ++ pr_be 8 i)).

Lemma wg_nonce_octets i : octets 12 (wg_nonce i).
Proof. destruct (pr_le_octets 8 i) as [L B]. split; unfold wg_nonce; [rewrite app_length, L; reflexivity|]. apply Forall_app. split; [repeat constructor | exact B]. Qed.
Lemma wg_nonce_inj i j : i < 2 ^ 64 -> j < 2 ^ 64 -> wg_nonce i = wg_nonce j -> i = j.
Proof. intros Hi Hj E. apply app_inv_head in E. apply (pr_le_inj 8) in E; assumption. Qed.
Lemma byte_lxor a b : a < 256 -> b < 256 -> N.lxor a b < 256.
Proof.
  intros Ha Hb. change 256 with (2 ^ 8) in *. destruct (N.eq_dec (N.lxor a b) 0) as [->|Z]; [reflexivity|].
  apply N.log2_lt_pow2; [lia|]. eapply N.le_lt_trans; [apply N.log2_lxor|].
  apply N.max_lub_lt; (destruct (N.eq_dec a 0) as [->|]; [|]); try (apply N.log2_lt_pow2; lia); try reflexivity;
    (destruct (N.eq_dec b 0) as [->|]; [reflexivity | apply N.log2_lt_pow2; lia]).
Qed.
Lemma xor_octets k a b : octets k a -> octets k b -> octets k (map (fun x => N.lxor (fst x) (snd x)) (combine a b)).
Proof.
  intros [La Ba] [Lb Bb]. split; [rewrite map_length, combine_length, La, Lb; apply Nat.min_id|].
  apply Forall_forall. intros x Hx. apply in_map_iff in Hx. destruct Hx as [[u v] [<- Hi]]. cbn [fst snd].
  rewrite Forall_forall in Ba, Bb. apply byte_lxor; [apply Ba; eapply in_combine_l, Hi | apply Bb; eapply in_combine_r, Hi].
Qed.
Lemma pad_octets i : octets 12 (repeat 0 4 ++ pr_be 8 i).
Proof. destruct (pr_be_octets 8 i) as [L B]. split; [rewrite app_length, L; reflexivity|]. apply Forall_app. split; [repeat constructor | exact B]. Qed.
Lemma tls_nonce_octets iv i : octets 12 iv -> octets 12 (tls_nonce iv i).
Proof. intros H. apply xor_octets; [exact H | apply pad_octets]. Qed.
Lemma xor_inj a : forall b c, List.length b = List.length a -> List.length c = List.length a ->
  map (fun x => N.lxor (fst x) (snd x)) (combine a b) = map (fun x => N.lxor (fst x) (snd x)) (combine a c) -> b = c.
Proof.
  induction a as [|x a IH]; intros [|y b] [|z c] Lb Lc E; cbn [List.length] in Lb, Lc; try discriminate; [reflexivity|].
  cbn [combine map fst snd] in E. assert (E1 := f_equal (hd 0) E). assert (E2 := f_equal (@tl N) E). cbn [hd tl] in E1, E2.
  f_equal; [|apply IH; [congruence | congruence | exact E2]].
  apply (f_equal (N.lxor x)) in E1. rewrite <- !N.lxor_assoc, N.lxor_nilpotent, !N.lxor_0_l in E1. exact E1.
Qed.
Lemma tls_nonce_inj iv i j : octets 12 iv -> i < 2 ^ 64 -> j < 2 ^ 64 -> tls_nonce iv i = tls_nonce iv j -> i = j.
Proof.
  intros [L _] Hi Hj E. apply xor_inj in E; [|rewrite L; apply pad_octets|rewrite L; apply pad_octets].
  apply app_inv_head in E. apply (pr_be_inj 8) in E; assumption.
Qed.

Lemma five_short e : env_ok e -> short e (repeat 0 5).
Proof. intros [H|[H|H]]; unfold short; rewrite H; reflexivity. Qed.

(** ** C93 *)
(** The seek and the five-byte call a QUIC implementation makes on [ChaCha20] give the mask,
    for every sample whose counter is not 2^32 - 1. *)
Theorem C93_quic_partial e n key sample : env_ok e -> octets 32 key -> octets 16 sample -> qu_counter sample <> 2 ^ 32 - 1 ->
  cipher_run e (CChaCha Ietf n key (qu_nonce sample)) [Seek (64 * qu_counter sample); Apply (repeat 0 5)]
  = Ok [Done; Bytes (qu_mask n key sample)].
Proof.
  intros He Hk Hs Hc. pose proof (qu_counter_lt sample Hs) as Hl. pose proof (qu_nonce_ok sample Hs) as Hn.
  rewrite (C17_history e _ _ He); [|split; assumption|repeat constructor; apply (five_short e He)].
  cbn [cipher_ks cipher_lim cipher_strict run_spec]. rewrite st_seek by lia. cbv beta iota.
  rewrite st_apply by (first [reflexivity | rewrite repeat_length; lia]). cbv beta iota.
  unfold qu_mask. rewrite ae_message_ok by (intros i; apply ietf_64). reflexivity.
Qed.
Print Assumptions C93_quic_partial.
(** FINDING.  For a sample that begins with four bytes 255 the seek succeeds and the call is
    refused, although RFC 9001 defines the mask; the unwrapping methods [seek] and
    [apply_keystream] panic.  The sample is ciphertext taken from the packet, which whoever
    sends the packet chooses. *)
Theorem C93_quic_refuted e n key sample : env_ok e -> octets 32 key -> octets 16 sample -> qu_counter sample = 2 ^ 32 - 1 ->
  cipher_run e (CChaCha Ietf n key (qu_nonce sample)) [Seek (64 * qu_counter sample); Apply (repeat 0 5)] = Ok [Done; Err]
  /\ unwrap_run e (CChaCha Ietf n key (qu_nonce sample)) (map (fun o => (true, Plain o)) [Seek (64 * qu_counter sample); Apply (repeat 0 5)]) = Panic.
Proof.
  intros He Hk Hs Hc. pose proof (qu_nonce_ok sample Hs) as Hn.
  assert (R : cipher_run e (CChaCha Ietf n key (qu_nonce sample)) [Seek (64 * qu_counter sample); Apply (repeat 0 5)] = Ok [Done; Err]).
  { rewrite (C17_history e _ _ He); [|split; assumption|repeat constructor; apply (five_short e He)].
    cbn [cipher_ks cipher_lim cipher_strict run_spec]. rewrite Hc. rewrite st_seek by (first [reflexivity | lia]). cbv beta iota.
    rewrite st_refused by (first [reflexivity | rewrite ?repeat_length; lia]). reflexivity. }
  split; [exact R|].
  pose proof (C82_unwrap e (CChaCha Ietf n key (qu_nonce sample)) [(true, Seek (64 * qu_counter sample)); (true, Apply (repeat 0 5))]) as U.
  cbn [map snd] in U |- *. unfold as_plain in U. cbn [fst snd] in U. rewrite U, R. reflexivity.
Qed.
Print Assumptions C93_quic_refuted.
(** The block-level interface of the core answers for every sample, that one included. *)
Theorem C93_quic_core e n key sample : env_ok e -> octets 32 key -> octets 16 sample ->
  exists block, block_run e (CChaCha Ietf n key (qu_nonce sample)) [BSetPos (qu_counter sample); BWrite1] None = Ok ([BDone; BBytes block], None)
    /\ firstn 5 block = qu_mask n key sample.
Proof.
  intros He Hk Hs. pose proof (qu_counter_lt sample Hs) as Hl. pose proof (qu_nonce_ok sample Hs) as Hn.
  exists (sp_ietf_block n key (qu_counter sample) (qu_nonce sample)). split; [|symmetry; apply qu_mask_block].
  rewrite C70_block; [|exact He|split; assumption|exact Logic.I| |exact Logic.I].
  - unfold b_all. cbn [b_run b_step cipher_ks counters cipher_strict block_bytes cipher_lim b_may negb orb].
    rewrite <- (whole_block (fun i => sp_ietf_block n key i (qu_nonce sample))) by apply ietf_64. reflexivity.
  - repeat constructor. exact Hl.
Qed.
Print Assumptions C93_quic_core.
(** The packets of OpenSSH: one cipher under K_1 for the length, one under K_2 for the one-time
    key and the payload, of any addressable length; [ChaCha20Legacy] is the cipher. *)
Theorem C93_openssh e n material seqno len payload : env_ok e -> octets 64 material -> short e len -> short e payload ->
  let '(l, k, p) := ssh_packet n material seqno len payload in
  cipher_run e (CChaCha Legacy n (skipn 32 material) (pr_be 8 seqno)) [Apply len] = Ok [Bytes l]
  /\ cipher_run e (CChaCha Legacy n (firstn 32 material) (pr_be 8 seqno)) [Apply (repeat 0 32); Seek 64; Apply payload]
     = Ok [Bytes k; Done; Bytes p].
Proof.
  intros He [Lm Bm] Hl Hp. unfold ssh_packet. cbv zeta. pose proof (pr_be_octets 8 seqno) as Hn.
  assert (K1 : octets 32 (skipn 32 material)) by (split; [rewrite skipn_length, Lm; reflexivity | apply bytes_skipn, Bm]).
  assert (K2 : octets 32 (firstn 32 material)) by (split; [rewrite firstn_length, Lm; reflexivity | apply bytes_firstn, Bm]).
  assert (U : 2 ^ e_usz e <= 2 ^ 64) by (destruct He as [-> | [-> | ->]]; discriminate). unfold short in *.
  split.
  - rewrite (C17_history e _ _ He); [|split; assumption|repeat constructor; exact Hl].
    cbn [cipher_ks cipher_lim cipher_strict run_spec]. rewrite st_apply by (first [reflexivity | lia]). cbv beta iota.
    rewrite ae_message_ok by (intros i; apply djb_64). reflexivity.
  - rewrite (C17_history e _ _ He); [|split; assumption|apply (aead_calls e payload He Hp)].
    cbn [cipher_ks cipher_lim cipher_strict run_spec]. rewrite st_apply by (first [reflexivity | rewrite ?repeat_length; lia]). cbv beta iota.
    rewrite st_seek by (first [reflexivity | lia]). cbv beta iota. rewrite st_apply by (first [reflexivity | lia]). cbv beta iota.
    rewrite ae_message_ok, ae_poly_key_ok by (intros i; apply djb_64). rewrite ks_xor_zeros. reflexivity.
Qed.
Print Assumptions C93_openssh.
(** A message of libsodium's secretstream, with the crate's [hchacha] and [ChaCha20], of up to
    2^32 - 3 blocks; libsodium's own limit is one block more, and that message is refused after
    the key and the tag went through. *)
Theorem C93_secretstream e n key header ctr tag msg : env_ok e -> octets 32 key -> octets 24 header -> tag < 256 -> short e msg ->
  let '(b, t, c) := st_push n key header ctr tag msg in
  cipher_run e (CChaCha Ietf n (hchacha n key (firstn 16 header)) (st_nonce header ctr)) [Apply (repeat 0 64); Apply (tag :: repeat 0 63); Apply msg]
  = Ok [Bytes b; Bytes t; if N.of_nat (List.length msg) <=? 64 * (2 ^ 32 - 3) then Bytes c else Err].
Proof.
  intros He Hk [Lh Bh] Ht Hm. unfold st_push. cbv zeta.
  assert (H1 : octets 16 (firstn 16 header)) by (split; [rewrite firstn_length, Lh; reflexivity | apply bytes_firstn, Bh]).
  assert (E : hchacha n key (firstn 16 header) = st_key n key header) by (destruct Hk, H1; apply hchacha_spec; assumption).
  assert (Hk2 : octets 32 (hchacha n key (firstn 16 header))) by (destruct Hk, H1; split; [apply hchacha_length | apply hchacha_bytes]; assumption).
  assert (Hn : octets 12 (st_nonce header ctr)).
  { destruct (pr_le_octets 4 ctr) as [L B]. split; unfold st_nonce; [rewrite app_length, L, skipn_length, Lh; reflexivity|].
    apply Forall_app. split; [exact B | apply bytes_skipn, Bh]. }
  rewrite (C17_history e _ _ He); [|split; assumption|].
  - rewrite <- E. clear E. set (k := hchacha n key (firstn 16 header)) in *. clearbody k.
    cbn [cipher_ks cipher_lim cipher_strict]. set (blk := fun i => sp_ietf_block n k i (st_nonce header ctr)).
    assert (H : forall i, List.length (blk i) = 64%nat) by (intros i; apply ietf_64). clearbody blk.
    cbn [run_spec]. rewrite st_apply by (first [reflexivity | rewrite ?repeat_length; lia]). cbv beta iota. rewrite repeat_length.
    rewrite st_apply by (first [reflexivity | cbn [List.length]; rewrite ?repeat_length; lia]). cbv beta iota.
    rewrite !ae_message_ok by exact H.
    change (0 + N.of_nat 64 + N.of_nat (List.length (tag :: repeat 0 63))) with 128. change (0 + N.of_nat 64) with (64 * 1).
    change (64 * 0) with 0. change (64 * 2) with 128.
    destruct (N.leb_spec (N.of_nat (List.length msg)) (64 * (2 ^ 32 - 3))) as [Hl|Hl].
    + rewrite st_apply by (first [reflexivity | lia]). reflexivity.
    + rewrite st_refused by (first [reflexivity | lia]). reflexivity.
  - assert (U : 2 ^ 16 <= 2 ^ e_usz e) by (destruct He as [-> | [-> | ->]]; discriminate).
    repeat constructor; cbn [call_ok]; [| |exact Hm]; cbn [List.length]; rewrite ?repeat_length; lia.
Qed.
Print Assumptions C93_secretstream.
(** Rekeying: key and inonce, 40 bytes, encrypted from block 0 on. *)
Theorem C93_rekey e n k inonce ctr : env_ok e -> octets 32 k -> octets 8 inonce ->
  cipher_run e (CChaCha Ietf n k (pr_le 4 ctr ++ inonce)) [Apply (k ++ inonce)]
  = Ok [Bytes (ae_message (fun i => sp_ietf_block n k i (pr_le 4 ctr ++ inonce)) 0 (k ++ inonce))].
Proof.
  intros He Hk Hi. assert (Hn : octets 12 (pr_le 4 ctr ++ inonce)).
  { destruct (pr_le_octets 4 ctr) as [L B], Hi as [Li Bi]. split; [rewrite app_length, L, Li; reflexivity|]. apply Forall_app. split; assumption. }
  assert (L : List.length (k ++ inonce) = 40%nat) by (rewrite app_length, (proj1 Hk), (proj1 Hi); reflexivity).
  rewrite (C17_history e _ _ He); [|split; assumption|].
  - cbn [cipher_ks cipher_lim cipher_strict run_spec]. rewrite st_apply by (first [reflexivity | rewrite L; lia]). cbv beta iota.
    rewrite ae_message_ok by (intros i; apply ietf_64). reflexivity.
  - repeat constructor. cbn [call_ok]. rewrite L. destruct He as [-> | [-> | ->]]; reflexivity.
Qed.
Print Assumptions C93_rekey.
(** Adiantum's stream cipher: XChaCha12 with a nonce of 16 computed bytes, a one and zeros, from block 0 on. *)
Theorem C93_adiantum e n key cm msg : env_ok e -> octets 32 key -> octets 16 cm -> short e msg -> N.of_nat (List.length msg) <= 64 * (2 ^ 32 - 1) ->
  cipher_run e (CXChaCha n key (cm ++ 1 :: repeat 0 7)) [Apply msg]
  = Ok [Bytes (ae_message (fun i => sp_xchacha_block n key i (cm ++ 1 :: repeat 0 7)) 0 msg)].
Proof.
  intros He Hk [Lc Bc] Hs Hl. assert (Hn : octets 24 (cm ++ 1 :: repeat 0 7)).
  { split; [rewrite app_length, Lc; reflexivity|]. apply Forall_app. split; [exact Bc | repeat constructor]. }
  rewrite (C17_history e _ _ He); [|split; assumption|repeat constructor; exact Hs].
  cbn [cipher_ks cipher_lim cipher_strict run_spec]. rewrite st_apply by (first [reflexivity | lia]). cbv beta iota.
  rewrite ae_message_ok by (intros i; apply ietf_64). reflexivity.
Qed.
Print Assumptions C93_adiantum.
(** RFC 4345 ([arcfour128], [arcfour256]): the first 1536 bytes are discarded and the packets
    of a connection then continue one keystream. *)
Theorem C93_arcfour e key packets : env_ok e -> (1 <= List.length key <= 256)%nat -> Forall (fun b => b < 256) key -> Forall (short e) packets ->
  exists discarded outs, cipher_run e (CRc4 key) (Write 1536 :: map Apply packets) = Ok (Bytes discarded :: map Bytes outs)
    /\ map (@List.length N) outs = map (@List.length N) packets
    /\ concat outs = map (fun x => N.lxor (fst x) (snd x))
                       (combine (concat packets) (map (fun i => rc_byte key (1536 + i)) (seq 0 (List.length (concat packets))))).
Proof.
  intros He Hl Hb Hp.
  rewrite (C17_history e _ _ He); [|split; assumption|].
  2:{ constructor; [cbn [call_ok]; destruct He as [-> | [-> | ->]]; reflexivity|].
      apply Forall_forall. intros o Ho. apply in_map_iff in Ho. destruct Ho as [d [<- Hd]]. rewrite Forall_forall in Hp. exact (Hp d Hd). }
  cbn [cipher_ks cipher_lim cipher_strict run_spec step_spec]. set (ks := fun j => rc_byte key (N.to_nat j)).
  exists (ks_range ks 0 1536). change (0 + N.of_nat 1536) with 1536.
  assert (R : forall packets p, exists outs p', run_spec ks None false p (map Apply packets) = Some (map Bytes outs, p')
    /\ map (@List.length N) outs = map (@List.length N) packets /\ concat outs = ks_xor ks p (concat packets)).
  { clear packets Hp. induction packets as [|d l IH]; intros p; [exists [], p; repeat split|].
    destruct (IH (p + N.of_nat (List.length d))) as [outs [p' [E [L C]]]]. exists (ks_xor ks p d :: outs), p'.
    cbn [map run_spec step_spec]. rewrite E. cbn [concat]. rewrite ks_xor_app, C, L, ks_xor_length. repeat split. }
  destruct (R packets 1536) as [outs [p' [E [L C]]]]. exists outs. rewrite E. split; [reflexivity|]. split; [exact L|].
  rewrite C. unfold ks_xor, ks_range. f_equal. f_equal. apply map_ext. intros i. unfold ks. f_equal. lia.
Qed.
Print Assumptions C93_arcfour.
(** A session never computes a block of the same input twice: under one key, packets with
    different numbers put the core in different states at all block positions, and so do
    different positions within a packet.  For WireGuard, TLS 1.3, SSH; and for QUIC's header
    protection two different samples. *)
Theorem C93_sessions key iv i j c d : octets 32 key -> octets 12 iv -> i < 2 ^ 64 -> j < 2 ^ 64 ->
  (forall a b, c < 2 ^ 32 -> d < 2 ^ 32 -> new_internal Ietf key (wg_nonce i) = Ok a -> new_internal Ietf key (wg_nonce j) = Ok b ->
     set_block_pos Ietf a c = set_block_pos Ietf b d -> i = j /\ c = d)
  /\ (forall a b, c < 2 ^ 32 -> d < 2 ^ 32 -> new_internal Ietf key (tls_nonce iv i) = Ok a -> new_internal Ietf key (tls_nonce iv j) = Ok b ->
     set_block_pos Ietf a c = set_block_pos Ietf b d -> i = j /\ c = d)
  /\ (forall a b, c < 2 ^ 64 -> d < 2 ^ 64 -> new_internal Legacy key (pr_be 8 i) = Ok a -> new_internal Legacy key (pr_be 8 j) = Ok b ->
     set_block_pos Legacy a c = set_block_pos Legacy b d -> i = j /\ c = d)
  /\ (forall a b s t, octets 16 s -> octets 16 t -> new_internal Ietf key (qu_nonce s) = Ok a -> new_internal Ietf key (qu_nonce t) = Ok b ->
     set_block_pos Ietf a (qu_counter s) = set_block_pos Ietf b (qu_counter t) -> s = t).
Proof.
  intros Hk Hv Hi Hj. repeat split.
  1, 2: pose proof (C53_chacha_inputs Ietf key (wg_nonce i) c key (wg_nonce j) d a b Hk Hk H H0 (wg_nonce_octets i) (wg_nonce_octets j) H1 H2 H3) as [_ [E F]].
  - apply wg_nonce_inj; assumption.
  - exact F.
  - pose proof (C53_chacha_inputs Ietf key (tls_nonce iv i) c key (tls_nonce iv j) d a b Hk Hk H H0 (tls_nonce_octets iv i Hv) (tls_nonce_octets iv j Hv) H1 H2 H3) as [_ [E F]].
    apply (tls_nonce_inj iv); assumption.
  - exact (proj2 (proj2 (C53_chacha_inputs Ietf key (tls_nonce iv i) c key (tls_nonce iv j) d a b Hk Hk H H0 (tls_nonce_octets iv i Hv) (tls_nonce_octets iv j Hv) H1 H2 H3))).
  - pose proof (C53_chacha_inputs Legacy key (pr_be 8 i) c key (pr_be 8 j) d a b Hk Hk H H0 (pr_be_octets 8 i) (pr_be_octets 8 j) H1 H2 H3) as [_ [E F]].
    apply (pr_be_inj 8); assumption.
  - exact (proj2 (proj2 (C53_chacha_inputs Legacy key (pr_be 8 i) c key (pr_be 8 j) d a b Hk Hk H H0 (pr_be_octets 8 i) (pr_be_octets 8 j) H1 H2 H3))).
  - intros a b s t Hs Ht A B E.
    pose proof (C53_chacha_inputs Ietf key (qu_nonce s) (qu_counter s) key (qu_nonce t) (qu_counter t) a b Hk Hk (qu_counter_lt s Hs) (qu_counter_lt t Ht) (qu_nonce_ok s Hs) (qu_nonce_ok t Ht) A B E) as [_ [E1 E2]].
    destruct Hs as [Ls Bs], Ht as [Lt Bt].
    do 16 (destruct s as [|? s]; [discriminate Ls|]). do 16 (destruct t as [|? t]; [discriminate Lt|]).
    destruct s; [|discriminate Ls]. destruct t; [|discriminate Lt]. unfold qu_nonce, qu_counter in E1, E2. cbn [skipn firstn pr_num] in E1, E2.
    repeat match goal with H : Forall _ (_ :: _) |- _ => inversion H; subst; clear H end.
    injection E1 as -> -> -> -> -> -> -> -> -> -> -> ->.
    assert (n = n15 /\ n0 = n16 /\ n1 = n17 /\ n2 = n18) by lia. intuition congruence.
Qed.
Print Assumptions C93_sessions.

(** RFC 9001 appendix A.5; a sample that is refused; RFC 6229's bytes at 1536. *)
Example C93_satisfiable :
  let key := hex "25a282b9e82f06f21f488917a4fc8f1b73573685608597d0efcb076b0ab7a7a4" in
  let sample := hex "5e5cd55c41f69080575d7999c25a5bfb" in
  octets 32 key /\ octets 16 sample /\ qu_counter sample = 0x5cd55c5e
  /\ cipher_run ex_env (CChaCha Ietf 10 key (qu_nonce sample)) [Seek (64 * qu_counter sample); Apply (repeat 0 5)] = Ok [Done; Bytes (hex "aefefe7d03")]
  /\ qu_mask 10 key sample = hex "aefefe7d03"
  /\ qu_counter (hex "ffffffff41f69080575d7999c25a5bfb") = 2 ^ 32 - 1
  /\ wg_nonce 258 = hex "000000000201000000000000" /\ pr_be 8 258 = hex "0000000000000102"
  /\ tls_nonce (hex "e0459b3474bdd0e44a41c144") 654360564 = hex "e0459b3474bdd0e46d417eb0".
Proof.
  cbv zeta. split; [apply octets_b_ok; vm_compute; reflexivity|]. split; [apply octets_b_ok; vm_compute; reflexivity|]. split; [vm_compute; reflexivity|].
  split; [rewrite eval_run_ok; [vm_compute; reflexivity | apply all_ok | vm_compute; reflexivity | vm_compute; reflexivity]|].
  split; [rewrite qu_mask_block; vm_compute; reflexivity|]. repeat split; vm_compute; reflexivity.
Qed.
Example C93_arcfour_satisfiable : exists discarded,
  cipher_run ex_env (CRc4 (hex "0102030405")) (Write 1536 :: map Apply [repeat 0 5; repeat 0 11])
  = Ok [Bytes discarded; Bytes (hex "d8729db418"); Bytes (hex "82259bee4f825325f5a130")].
Proof. eexists. rewrite eval_run_ok; [vm_compute; reflexivity | apply all_ok | vm_compute; reflexivity | vm_compute; reflexivity]. Qed.
Example C93_messages_satisfiable : octets 64 (repeat 7 64) /\ octets 24 (repeat 9 24) /\ short ex_env (repeat 1 1000)
  /\ snd (ssh_packet 10 (repeat 7 64) 3 (repeat 0 4) [1; 2; 3]) <> snd (ssh_packet 10 (repeat 7 64) 4 (repeat 0 4) [1; 2; 3])
  /\ st_push 10 (repeat 7 32) (repeat 9 24) 1 0 [1; 2; 3] <> st_push 10 (repeat 7 32) (repeat 9 24) 2 0 [1; 2; 3].
Proof.
  split; [apply octets_b_ok; vm_compute; reflexivity|]. split; [apply octets_b_ok; vm_compute; reflexivity|]. split; [vm_compute; reflexivity|].
  split; vm_compute; intros E; discriminate E.
Qed.
