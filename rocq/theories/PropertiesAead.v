(** Final theorem C81: the call sequences of the authenticated-encryption protocols built on
    these crates.

    [chacha20/README.md] (lines 32 and 33) sends users who need authenticated encryption to
    protocols such as [chacha20poly1305] built on this crate.  Such protocols take their one-time Poly1305 key and their message keystream from one cipher:
    RFC 8439 (sections 2.4, 2.6, 2.8) from block 0 and from block 1 on, NaCl's [secretbox]
    from bytes 0 to 31 and from byte 32 on.  The protocols are written here from those
    documents, block by block; the theorems say that the obvious calls on the cipher types
    compute them, in every environment, and where the calls are refused. *)
From Coq Require Import String.
From Verif Require Import Word Res WordLemmas Hex PropCommon SpecStream SpecChaCha SpecSalsa ChaChaCore ChaChaDispatch ChaChaDispatchProofs Ciphers
  CipherWrapper WrapperProofs CiphersProofs StreamLemmas SalsaProofs PropertiesStream PropertiesCross Fast.
From Coq Require Import ZArith Lia ZifyBool ZifyNat ZifyN.
Ltac Zify.zify_post_hook ::= Z.div_mod_to_equations.
Local Open Scope string_scope.
Local Open Scope N_scope.
Local Open Scope list_scope.

(** RFC 8439 §2.4.1, [chacha20_encrypt]: message blocks of 64 bytes (the last one may be
    shorter) are XORed with [blk counter], [blk (counter + 1)], ... *)
Fixpoint ae_encrypt (blk : N -> list N) (counter : N) (fuel : nat) (msg : list N) : list N :=
  match fuel, msg with
  | S f, _ :: _ =>
      map (fun x => N.lxor (fst x) (snd x)) (combine (firstn 64 msg) (blk counter))
      ++ ae_encrypt blk (counter + 1) f (skipn 64 msg)
  | _, _ => []
  end.
Definition ae_message (blk : N -> list N) (counter : N) (msg : list N) : list N := ae_encrypt blk counter (List.length msg) msg.
(** RFC 8439 §2.6, [poly1305_key_gen]: the first 32 bytes of block 0. *)
Definition ae_poly_key (blk : N -> list N) : list N := firstn 32 (blk 0).
(** NaCl [crypto_secretbox]: the message is preceded by 32 zero bytes and encrypted from
    block 0 on; the first 32 bytes of the result are the Poly1305 key, the rest the ciphertext. *)
Definition ae_box (blk : N -> list N) (msg : list N) : list N * list N :=
  let c := ae_message blk 0 (repeat 0 32 ++ msg) in (firstn 32 c, skipn 32 c).

Lemma one_block blk q m : List.length (blk q) = 64%nat -> (List.length m <= 64)%nat ->
  ks_xor (ks_of_blocks 64 blk) (64 * q) m = map (fun x => N.lxor (fst x) (snd x)) (combine m (blk q)).
Proof.
  intros H L. unfold ks_xor. f_equal. rewrite <- (ks_range_firstn _ _ 64) by exact L. rewrite whole_block by exact H.
  clear H. revert L. generalize (blk q). generalize 64%nat. induction m as [|x m IH]; intros n l L; [reflexivity|].
  destruct l as [|y l]; [reflexivity|]. cbn [List.length firstn combine]. f_equal. apply (IH n). cbn [List.length] in L. lia.
Qed.
Lemma ae_encrypt_ok blk : (forall i, List.length (blk i) = 64%nat) -> forall fuel q m, (List.length m <= fuel)%nat ->
  ae_encrypt blk q fuel m = ks_xor (ks_of_blocks 64 blk) (64 * q) m.
Proof.
  intros H. induction fuel as [|f IH]; intros q m L; [destruct m; [reflexivity | cbn in L; lia]|].
  destruct m as [|x m]; [reflexivity|]. cbn [ae_encrypt]. set (d := x :: m) in *.
  rewrite <- (firstn_skipn 64 d) at 3. rewrite ks_xor_app. rewrite one_block by (first [apply H | rewrite firstn_length; lia]).
  f_equal. destruct (Nat.le_gt_cases (List.length d) 64) as [S|S].
  - rewrite skipn_all2 by exact S. destruct f; reflexivity.
  - rewrite firstn_length, Nat.min_l by lia. rewrite IH.
    + f_equal. lia.
    + rewrite skipn_length. unfold d in *. cbn [List.length] in *. lia.
Qed.
Lemma ae_message_ok blk q m : (forall i, List.length (blk i) = 64%nat) -> ae_message blk q m = ks_xor (ks_of_blocks 64 blk) (64 * q) m.
Proof. intros H. apply ae_encrypt_ok; [exact H | apply Nat.le_refl]. Qed.
Lemma ae_poly_key_ok blk : (forall i, List.length (blk i) = 64%nat) -> ae_poly_key blk = ks_range (ks_of_blocks 64 blk) 0 32.
Proof. intros H. unfold ae_poly_key. rewrite <- (whole_block blk 0) by apply H. apply (ks_range_firstn _ _ 64). lia. Qed.
Lemma ietf_64 n key c iv : List.length (sp_ietf_block n key c iv) = 64%nat.
Proof. unfold sp_ietf_block. rewrite serialize_length, sp_core_length; reflexivity. Qed.
Lemma xblock_64 n key iv c : octets 32 key -> octets 24 iv -> List.length (ss_xblock n key iv c) = 64%nat.
Proof.
  intros [Lk Bk] [Li Bi]. unfold ss_xblock. assert (octets 16 (firstn 16 iv)).
  { split; [rewrite firstn_length, Li; reflexivity | apply bytes_firstn, Bi]. }
  destruct H as [L1 B1]. apply ss_block_length.
  - rewrite <- hsalsa_spec by assumption. apply hsalsa_length; assumption.
  - rewrite skipn_length, Li. reflexivity.
  - rewrite <- hsalsa_spec by assumption. apply hsalsa_bytes; assumption.
  - apply bytes_skipn, Bi.
Qed.

Lemma aead_calls e msg : env_ok e -> short e msg -> Forall (call_ok e) [Apply (repeat 0 32); Seek 64; Apply msg].
Proof.
  intros He Hs. repeat constructor; cbn [call_ok]; [|exact Hs]. rewrite repeat_length. destruct He as [-> | [-> | ->]]; reflexivity.
Qed.
(** What the three calls of an RFC 8439 user answer, for any cipher with 2^32 blocks of 64 bytes. *)
Lemma aead_run e c blk msg : env_ok e -> cipher_ok c -> short e msg ->
  cipher_ks c = ks_of_blocks 64 blk -> cipher_lim c = Some {| l_bs := 64; l_blocks := 2 ^ 32 |} -> cipher_strict e c = false ->
  (forall i, List.length (blk i) = 64%nat) ->
  cipher_run e c [Apply (repeat 0 32); Seek 64; Apply msg]
  = Ok [Bytes (ae_poly_key blk); Done;
        if N.of_nat (List.length msg) <=? 64 * (2 ^ 32 - 2) then Bytes (ae_message blk 1 msg) else Err].
Proof.
  intros He Hc Hs K L S H. rewrite (C17_history e c _ He Hc (aead_calls e msg He Hs)). rewrite K, L, S.
  cbn [run_spec step_spec l_bs l_blocks andb]. unfold granted, l_period, l_usable. cbn [l_bs l_blocks]. rewrite repeat_length.
  change (0 mod (64 * 2 ^ 32)) with 0. change (64 mod (64 * 2 ^ 32)) with 64.
  change (0 <=? 64 * (2 ^ 32 - 1)) with true. change (64 <=? 64 * (2 ^ 32 - 1)) with true.
  change (0 + N.of_nat 32 <=? 64 * (2 ^ 32 - 1)) with true. change (64 / 64 <? 2 ^ 32) with true. cbv iota.
  change (64 mod (64 * 2 ^ 32)) with 64. change (64 <=? 64 * (2 ^ 32 - 1)) with true. cbv iota.
  rewrite (ae_poly_key_ok blk H), (ae_message_ok blk 1 msg H), ks_xor_zeros. rewrite N.mul_1_r.
  replace (64 + N.of_nat (List.length msg) <=? 64 * (2 ^ 32 - 1)) with (N.of_nat (List.length msg) <=? 64 * (2 ^ 32 - 2)).
  - destruct (N.of_nat (List.length msg) <=? 64 * (2 ^ 32 - 2)); reflexivity.
  - apply Bool.eq_iff_eq_true. rewrite !N.leb_le. lia.
Qed.

(** ** C81 *)
(** ChaCha20-Poly1305 of RFC 8439: encrypting 32 zero bytes, seeking to byte 64 and
    encrypting a message of up to 2^32 - 2 blocks gives the one-time key of section 2.6 and
    the ciphertext of section 2.4 with initial counter 1. *)
Theorem C81_rfc8439 e n key nonce msg : env_ok e -> octets 32 key -> octets 12 nonce -> short e msg ->
  N.of_nat (List.length msg) <= 64 * (2 ^ 32 - 2) ->
  cipher_run e (CChaCha Ietf n key nonce) [Apply (repeat 0 32); Seek 64; Apply msg]
  = Ok [Bytes (ae_poly_key (fun i => sp_ietf_block n key i nonce)); Done;
        Bytes (ae_message (fun i => sp_ietf_block n key i nonce) 1 msg)].
Proof.
  intros He Hk Hn Hs Hl. rewrite (aead_run e _ (fun i => sp_ietf_block n key i nonce)); first [assumption | split; assumption | (intros i; apply ietf_64) | reflexivity | idtac].
  - apply N.leb_le in Hl. rewrite Hl. reflexivity.
Qed.
Print Assumptions C81_rfc8439.
(** XChaCha20-Poly1305 (draft-irtf-cfrg-xchacha-03 section 2.3), likewise. *)
Theorem C81_xchacha e n key nonce msg : env_ok e -> octets 32 key -> octets 24 nonce -> short e msg ->
  N.of_nat (List.length msg) <= 64 * (2 ^ 32 - 2) ->
  cipher_run e (CXChaCha n key nonce) [Apply (repeat 0 32); Seek 64; Apply msg]
  = Ok [Bytes (ae_poly_key (fun i => sp_xchacha_block n key i nonce)); Done;
        Bytes (ae_message (fun i => sp_xchacha_block n key i nonce) 1 msg)].
Proof.
  intros He Hk Hn Hs Hl. rewrite (aead_run e _ (fun i => sp_xchacha_block n key i nonce)); first [assumption | split; assumption | (intros i; apply ietf_64) | reflexivity | idtac].
  - apply N.leb_le in Hl. rewrite Hl. reflexivity.
Qed.
Print Assumptions C81_xchacha.
(** RFC 8439 section 2.8 allows messages of up to 2^32 - 1 blocks (274,877,906,880 bytes).
    The cipher types keep their last block back, so a message that needs counter 2^32 - 1 is
    refused, untouched: the protocol's final 64 bytes cannot be used through these calls. *)
Theorem C81_last_block e n key msg : env_ok e -> octets 32 key -> short e msg ->
  64 * (2 ^ 32 - 2) < N.of_nat (List.length msg) ->
  (forall nonce, octets 12 nonce ->
   cipher_run e (CChaCha Ietf n key nonce) [Apply (repeat 0 32); Seek 64; Apply msg]
   = Ok [Bytes (ae_poly_key (fun i => sp_ietf_block n key i nonce)); Done; Err])
  /\ (forall nonce, octets 24 nonce ->
   cipher_run e (CXChaCha n key nonce) [Apply (repeat 0 32); Seek 64; Apply msg]
   = Ok [Bytes (ae_poly_key (fun i => sp_xchacha_block n key i nonce)); Done; Err]).
Proof.
  intros He Hk Hs Hl. apply N.leb_gt in Hl. split; intros nonce Hn.
  - rewrite (aead_run e _ (fun i => sp_ietf_block n key i nonce)); first [assumption | split; assumption | (intros i; apply ietf_64) | reflexivity | idtac].
    + rewrite Hl. reflexivity.
  - rewrite (aead_run e _ (fun i => sp_xchacha_block n key i nonce)); first [assumption | split; assumption | (intros i; apply ietf_64) | reflexivity | idtac].
    + rewrite Hl. reflexivity.
Qed.
Print Assumptions C81_last_block.
(** Receivers run the same calls on the ciphertext and get the same key and the message. *)
Theorem C81_open e n key nonce msg k ct : env_ok e -> octets 32 key -> octets 12 nonce -> short e msg ->
  cipher_run e (CChaCha Ietf n key nonce) [Apply (repeat 0 32); Seek 64; Apply msg] = Ok [Bytes k; Done; Bytes ct] ->
  cipher_run e (CChaCha Ietf n key nonce) [Apply (repeat 0 32); Seek 64; Apply ct] = Ok [Bytes k; Done; Bytes msg].
Proof.
  intros He Hk Hn Hs R. assert (H : forall i, List.length (sp_ietf_block n key i nonce) = 64%nat) by (intros i; apply ietf_64).
  rewrite (aead_run e _ (fun i => sp_ietf_block n key i nonce)) in R; first [assumption | exact H | split; assumption | reflexivity | idtac].
  destruct (N.leb_spec (N.of_nat (List.length msg)) (64 * (2 ^ 32 - 2))) as [Hl|Hl]; [|discriminate R].
  assert (E : ae_message (fun i => sp_ietf_block n key i nonce) 1 msg = ct) by congruence.
  assert (E2 : ae_poly_key (fun i => sp_ietf_block n key i nonce) = k) by congruence. clear R.
  rewrite ae_message_ok in E by exact H.
  assert (Lc : List.length ct = List.length msg) by (rewrite <- E; apply ks_xor_length).
  rewrite C81_rfc8439; try assumption; try (unfold short; rewrite Lc; assumption).
  rewrite E2, ae_message_ok by exact H. rewrite <- E, ks_xor_twice. reflexivity.
Qed.
Print Assumptions C81_open.
(** NaCl's [secretbox] (XSalsa20-Poly1305): 32 keystream bytes, then the message, without a
    seek in between. *)
Theorem C81_secretbox e n key nonce msg : env_ok e -> octets 32 key -> octets 24 nonce -> short e msg ->
  N.of_nat (List.length msg) <= 64 * (2 ^ 64 - 1) - 32 ->
  cipher_run e (CXSalsa n key nonce) [Apply (repeat 0 32); Apply msg]
  = Ok [Bytes (fst (ae_box (ss_xblock n key nonce) msg)); Bytes (snd (ae_box (ss_xblock n key nonce) msg))].
Proof.
  intros He Hk Hn Hs Hl. rewrite (C17_history e _ _ He).
  - cbn [cipher_ks cipher_lim run_spec step_spec]. unfold granted, l_period, l_usable. cbn [l_bs l_blocks]. rewrite repeat_length.
    change (0 mod (64 * 2 ^ 64)) with 0. change ((0 + N.of_nat 32) mod (64 * 2 ^ 64)) with 32.
    change (0 <=? 64 * (2 ^ 64 - 1)) with true. change (32 <=? 64 * (2 ^ 64 - 1)) with true.
    change (0 + N.of_nat 32 <=? 64 * (2 ^ 64 - 1)) with true. cbv iota.
    change ((0 + N.of_nat 32) mod (64 * 2 ^ 64)) with 32. change (32 <=? 64 * (2 ^ 64 - 1)) with true. cbv iota.
    replace (32 + N.of_nat (List.length msg) <=? 64 * (2 ^ 64 - 1)) with true by (symmetry; apply N.leb_le; lia).
    assert (H : forall i, List.length (ss_xblock n key nonce i) = 64%nat) by (intros i; apply xblock_64; assumption).
    unfold ae_box. cbn [fst snd]. rewrite ae_message_ok by exact H. rewrite N.mul_0_r, ks_xor_app.
    rewrite (repeat_length 0 32).
    assert (L : List.length (ks_xor (ks_of_blocks 64 (ss_xblock n key nonce)) 0 (repeat 0 32)) = 32%nat) by (rewrite ks_xor_length; reflexivity).
    rewrite (firstn_app_len _ _ 32) by exact L. rewrite (skipn_app_len _ _ 32) by exact L. reflexivity.
  - split; assumption.
  - repeat constructor; cbn [call_ok]; [|exact Hs]. rewrite repeat_length. destruct He as [-> | [-> | ->]]; reflexivity.
Qed.
Print Assumptions C81_secretbox.

(** RFC 8439 section 2.8.2, and the [secretbox] test of the NaCl distribution. *)
Definition sunscreen : list N := hex
  "4c616469657320616e642047656e746c656d656e206f662074686520636c617373206f66202739393a204966204920636f756c64206f6666657220796f75206f6e6c79206f6e652074697020666f7220746865206675747572652c2073756e73637265656e20776f756c642062652069742e".
Example C81_satisfiable :
  env_ok ex_env /\ short ex_env sunscreen /\ List.length sunscreen = 114%nat
  /\ cipher_run ex_env (CChaCha Ietf 10 (hex "808182838485868788898a8b8c8d8e8f909192939495969798999a9b9c9d9e9f") (hex "070000004041424344454647"))
       [Apply (repeat 0 32); Seek 64; Apply sunscreen]
     = Ok [Bytes (hex "7bac2b252db447af09b67a55a4e955840ae1d6731075d9eb2a9375783ed553ff"); Done;
           Bytes (hex "d31a8d34648e60db7b86afbc53ef7ec2a4aded51296e08fea9e2b5a736ee62d63dbea45e8ca9671282fafb69da92728b1a71de0a9e060b2905d6a5b67ecd3b3692ddbd7f2d778b8c9803aee328091b58fab324e4fad675945585808b4831d7bc3ff4def08e4b7a9de576d26586cec64b6116")]
  /\ cipher_run ex_env2 (CXSalsa 10 (hex "1b27556473e985d462cd51197a9a46c76009549eac6474f206c4ee0844f68389") (hex "69696ee955b62b73cd62bda875fc73d68219e0036b7a0b37"))
       [Apply (repeat 0 32); Apply (hex "be075fc53c81f2d5cf141316ebeb0c7b5228c52a4c62cbd44b66849b64244ffce5ecbaaf33bd751a1ac728d45e6c61296cdc3c01233561f41db66cce314adb310e3be8250c46f06dceea3a7fa1348057e2f6556ad6b1318a024a838f21af1fde048977eb48f59ffd4924ca1c60902e52f0a089bc76897040e082f937763848645e0705")]
     = Ok [Bytes (hex "eea6a7251c1e72916d11c2cb214d3c252539121d8e234e652d651fa4c8cff880");
           Bytes (hex "8e993b9f48681273c29650ba32fc76ce48332ea7164d96a4476fb8c531a1186ac0dfc17c98dce87b4da7f011ec48c97271d2c20f9b928fe2270d6fb863d51738b48eeee314a7cc8ab932164548e526ae90224368517acfeabd6bb3732bc0e9da99832b61ca01b6de56244a9e88d5f9b37973f622a43d14a6599b1f654cb45a74e355a5")].
Proof.
  split; [apply all_ok|]. split; [vm_compute; reflexivity|]. split; [vm_compute; reflexivity|].
  split; (rewrite eval_run_ok; [vm_compute; reflexivity | apply all_ok | vm_compute; reflexivity | vm_compute; reflexivity]).
Qed.
(** The longest message of RFC 8439 section 2.8 exists on a 64-bit machine and is refused. *)
Example C81_last_block_satisfiable : exists msg, short ex_env msg /\ N.of_nat (List.length msg) = 274877906880
  /\ 64 * (2 ^ 32 - 2) < N.of_nat (List.length msg).
Proof.
  exists (repeat 0 (N.to_nat 274877906880)). unfold short. rewrite repeat_length, N2Nat.id. repeat split; reflexivity.
Qed.
