(** Salsa20: the model equals the specification; counter arithmetic. *)
From Verif Require Import Word WordLemmas Res SpecSalsa Salsa ChaChaProofs ChaChaDispatchProofs.
From Coq Require Import ZArith Lia ZifyBool ZifyNat ZifyN.
Ltac Zify.zify_post_hook ::= Z.div_mod_to_equations.

(** The four outputs of a quarter round. *)
Section QR.
  Variables a b c d : N.
  Definition z_b := xor32 b (rotl32 (add32 a d) 7).
  Definition z_c := xor32 c (rotl32 (add32 z_b a) 9).
  Definition z_d := xor32 d (rotl32 (add32 z_c z_b) 13).
  Definition z_a := xor32 a (rotl32 (add32 z_d z_c) 18).
End QR.

Lemma z_b_lt a b d : b < M32 -> z_b a b d < M32.
Proof. intros. apply xor32_lt; [assumption | apply rotl32_lt; lia]. Qed.
Lemma z_c_lt a b c d : c < M32 -> z_c a b c d < M32.
Proof. intros. apply xor32_lt; [assumption | apply rotl32_lt; lia]. Qed.
Lemma z_d_lt a b c d : d < M32 -> z_d a b c d < M32.
Proof. intros. apply xor32_lt; [assumption | apply rotl32_lt; lia]. Qed.
Lemma z_a_lt a b c d : a < M32 -> z_a a b c d < M32.
Proof. intros. apply xor32_lt; [assumption | apply rotl32_lt; lia]. Qed.

Lemma s_rot_spec x r : x < M32 -> r <= 32 -> rotl32 x r = ss_rot x r.
Proof.
  intros Hx Hr. rewrite rotl32_arith by assumption. unfold ss_rot.
  rewrite (N.mod_small x) by (rewrite <- M32_pow; assumption). reflexivity.
Qed.
Lemma ss_quarterround_eq a b c d :
  ss_quarterround a b c d = (z_a a b c d, z_b a b d, z_c a b c d, z_d a b c d).
Proof.
  unfold ss_quarterround. cbv zeta. unfold z_a, z_d, z_c, z_b.
  repeat rewrite s_rot_spec by (try apply add32_lt; lia). reflexivity.
Qed.

Ltac qr_solve := cbv [s_quarter_round upd get nth z_a z_b z_c z_d]; reflexivity.
Section QRs.
  Variables x0 x1 x2 x3 x4 x5 x6 x7 x8 x9 x10 x11 x12 x13 x14 x15 : N.
  Let L := [x0;x1;x2;x3;x4;x5;x6;x7;x8;x9;x10;x11;x12;x13;x14;x15].
  Let c a b d := z_c a b d.
  Lemma sq_0 : s_quarter_round 0 4 8 12 L =
    [z_a x0 x4 x8 x12; x1; x2; x3; z_b x0 x4 x12; x5; x6; x7; z_c x0 x4 x8 x12; x9; x10; x11; z_d x0 x4 x8 x12; x13; x14; x15].
  Proof. unfold L. qr_solve. Qed.
  Lemma sq_1 : s_quarter_round 5 9 13 1 L =
    [x0; z_d x5 x9 x13 x1; x2; x3; x4; z_a x5 x9 x13 x1; x6; x7; x8; z_b x5 x9 x1; x10; x11; x12; z_c x5 x9 x13 x1; x14; x15].
  Proof. unfold L. qr_solve. Qed.
  Lemma sq_2 : s_quarter_round 10 14 2 6 L =
    [x0; x1; z_c x10 x14 x2 x6; x3; x4; x5; z_d x10 x14 x2 x6; x7; x8; x9; z_a x10 x14 x2 x6; x11; x12; x13; z_b x10 x14 x6; x15].
  Proof. unfold L. qr_solve. Qed.
  Lemma sq_3 : s_quarter_round 15 3 7 11 L =
    [x0; x1; x2; z_b x15 x3 x11; x4; x5; x6; z_c x15 x3 x7 x11; x8; x9; x10; z_d x15 x3 x7 x11; x12; x13; x14; z_a x15 x3 x7 x11].
  Proof. unfold L. qr_solve. Qed.
  Lemma sq_4 : s_quarter_round 0 1 2 3 L =
    [z_a x0 x1 x2 x3; z_b x0 x1 x3; z_c x0 x1 x2 x3; z_d x0 x1 x2 x3; x4; x5; x6; x7; x8; x9; x10; x11; x12; x13; x14; x15].
  Proof. unfold L. qr_solve. Qed.
  Lemma sq_5 : s_quarter_round 5 6 7 4 L =
    [x0; x1; x2; x3; z_d x5 x6 x7 x4; z_a x5 x6 x7 x4; z_b x5 x6 x4; z_c x5 x6 x7 x4; x8; x9; x10; x11; x12; x13; x14; x15].
  Proof. unfold L. qr_solve. Qed.
  Lemma sq_6 : s_quarter_round 10 11 8 9 L =
    [x0; x1; x2; x3; x4; x5; x6; x7; z_c x10 x11 x8 x9; z_d x10 x11 x8 x9; z_a x10 x11 x8 x9; z_b x10 x11 x9; x12; x13; x14; x15].
  Proof. unfold L. qr_solve. Qed.
  Lemma sq_7 : s_quarter_round 15 12 13 14 L =
    [x0; x1; x2; x3; x4; x5; x6; x7; x8; x9; x10; x11; z_b x15 x12 x14; z_c x15 x12 x13 x14; z_d x15 x12 x13 x14; z_a x15 x12 x13 x14].
  Proof. unfold L. qr_solve. Qed.
End QRs.
Global Opaque z_a z_b z_c z_d s_quarter_round ss_quarterround.

Lemma s_double_round_spec st : length st = 16%nat -> s_double_round st = ss_doubleround st.
Proof.
  intros Hl. destr16 st Hl. unfold s_double_round.
  rewrite sq_0, sq_1, sq_2, sq_3, sq_4, sq_5, sq_6, sq_7.
  unfold ss_doubleround, ss_columnround, ss_rowround. rewrite !ss_quarterround_eq. reflexivity.
Qed.
Lemma s_double_round_wf st : wf16 st -> wf16 (s_double_round st).
Proof.
  intros [Hl Hw]. destr16 st Hl. unfold s_double_round.
  rewrite sq_0, sq_1, sq_2, sq_3, sq_4, sq_5, sq_6, sq_7.
  unfold words in Hw. inv_forall. unfold W32 in *.
  split; [reflexivity|]. unfold words, W32. repeat constructor; repeat first [assumption | apply z_a_lt | apply z_b_lt | apply z_c_lt | apply z_d_lt].
Qed.
Global Opaque s_double_round ss_doubleround.

Lemma iter_s_wf n st : wf16 st -> wf16 (iter_n n s_double_round st).
Proof. intros H. apply (iter_n_inv wf16); [assumption|]. intros y Hy. apply s_double_round_wf; assumption. Qed.
Lemma iter_s_spec n st : wf16 st -> iter_n n s_double_round st = ss_rounds n st.
Proof.
  intros H. unfold ss_rounds. induction n as [|n IH]; [reflexivity|].
  rewrite iter_n_S_out. cbn [Nat.iter nat_rect]. fold (Nat.iter n ss_doubleround st).
  rewrite <- IH. apply s_double_round_spec. apply iter_s_wf; assumption.
Qed.

Lemma s_zip_add_length a b : length (s_zip_add a b) = length a.
Proof. revert b; induction a as [|x a IH]; intros [|y b]; cbn [s_zip_add length]; auto. Qed.
Lemma s_zip_add_words a b : words a -> words (s_zip_add a b).
Proof.
  intros H. revert b; induction H as [|x a Hx Ha IH]; intros [|y b]; cbn [s_zip_add];
    constructor; try apply add32_lt; try assumption; apply IH.
Qed.
Lemma s_run_rounds_wf n st : wf16 st -> wf16 (s_run_rounds n st).
Proof.
  intros H. pose proof (iter_s_wf n st H) as [Hl Hw]. unfold s_run_rounds. split.
  - rewrite s_zip_add_length. assumption.
  - apply s_zip_add_words. assumption.
Qed.
Lemma s_zip_add_spec a b : length a = length b ->
  s_zip_add a b = map (fun p => ss_plus (fst p) (snd p)) (combine b a).
Proof.
  revert b; induction a as [|x a IH]; intros [|y b] H; cbn in H; try discriminate; [reflexivity|].
  cbn [s_zip_add combine map fst snd]. rewrite IH by congruence. f_equal. unfold ss_plus, add32. f_equal. lia.
Qed.
Lemma s_run_rounds_spec n st : wf16 st -> s_run_rounds n st = ss_core n st.
Proof.
  intros H. unfold s_run_rounds, ss_core. rewrite <- iter_s_spec by assumption.
  apply s_zip_add_spec. pose proof (iter_s_wf n st H) as [Hl _]. destruct H as [H _]. congruence.
Qed.

(** ** Bytes and words *)
Lemma ss_bytes_eq l : bytes_of_words l = ss_bytes l.
Proof.
  unfold bytes_of_words, ss_bytes. apply flat_map_ext. intros w. cbn [to_le].
  rewrite !N.div_div by discriminate. reflexivity.
Qed.
Lemma ss_words_eq n : forall b, length b = (4 * n)%nat -> words_of_bytes b = ss_words n b.
Proof.
  induction n as [|n IH]; intros b H.
  - destruct b; [reflexivity|discriminate].
  - destruct b as [|b0 [|b1 [|b2 [|b3 t]]]]; cbn in H; try lia.
    cbn [words_of_bytes]. unfold ss_words. cbn [seq map]. f_equal.
    + unfold ss_littleendian. cbn [Nat.mul Nat.add nth from_le]. change (2^8) with 256.
      change (2^16) with 65536. change (2^24) with 16777216. lia.
    + rewrite IH by lia. unfold ss_words. rewrite <- seq_shift, map_map. apply map_ext. intros i.
      unfold ss_littleendian. replace (4 * S i)%nat with (S (S (S (S (4 * i))))) by lia. reflexivity.
Qed.

(** ** States *)
(** The matrix for key halves, and 16-byte nonce/counter part given as four words. *)
Definition s_matrix (key : list N) (mid : list N) : list N :=
  [0x61707865] ++ words_of_bytes (firstn 16 key) ++ [0x3320646e] ++ mid
  ++ [0x79622d32] ++ words_of_bytes (skipn 16 key) ++ [0x6b206574].
Definition s_state (key iv : list N) (c : N) : list N :=
  s_matrix key (words_of_bytes iv ++ [c mod M32; (c / M32) mod M32]).

Ltac len4 l H := destruct l as [|? [|? [|? [|? [|]]]]]; try discriminate H.
Ltac len2 l H := destruct l as [|? [|? [|]]]; try discriminate H.

Lemma half_key key : length key = 32%nat ->
  length (words_of_bytes (firstn 16 key)) = 4%nat /\ length (words_of_bytes (skipn 16 key)) = 4%nat.
Proof.
  intros H. split; apply words_of_bytes_length; [rewrite firstn_length, H | rewrite skipn_length, H]; reflexivity.
Qed.

Lemma salsa_new_eq key iv : length key = 32%nat -> length iv = 8%nat -> salsa_new key iv = s_state key iv 0.
Proof.
  intros Hk Hi. unfold salsa_new, s_state, s_matrix. destruct (half_key key Hk) as [H1 H2].
  pose proof (words_of_bytes_length 2 iv Hi) as H3.
  set (a := words_of_bytes (firstn 16 key)) in *. set (b := words_of_bytes (skipn 16 key)) in *.
  set (i := words_of_bytes iv) in *. clearbody a b i. len4 a H1. len4 b H2. len2 i H3. reflexivity.
Qed.

Lemma s_matrix_wf key mid : length key = 32%nat -> bytes key -> length mid = 4%nat -> words mid -> wf16 (s_matrix key mid).
Proof.
  intros Hk Bk Hm Wm. destruct (half_key key Hk) as [H1 H2]. split.
  - unfold s_matrix. rewrite !app_length, H1, H2, Hm. reflexivity.
  - unfold words in *. pose proof (words_of_bytes_wf _ (bytes_firstn 16 key Bk)) as W1.
    pose proof (words_of_bytes_wf _ (bytes_skipn 16 key Bk)) as W2. unfold words in *.
    unfold s_matrix. rewrite !Forall_app. unfold W32 in *. repeat split; try assumption; repeat constructor.
Qed.
Lemma s_state_wf key iv c : length key = 32%nat -> length iv = 8%nat -> bytes key -> bytes iv -> wf16 (s_state key iv c).
Proof.
  intros Hk Hi Bk Bi. apply s_matrix_wf; try assumption.
  - rewrite app_length, (words_of_bytes_length 2 iv Hi). reflexivity.
  - apply Forall_app. split; [apply words_of_bytes_wf; assumption|].
    unfold W32. repeat constructor; apply N.mod_lt; discriminate.
Qed.

Lemma words_of_bytes_app4 n a b : length a = (4 * n)%nat -> words_of_bytes (a ++ b) = words_of_bytes a ++ words_of_bytes b.
Proof. apply words_of_bytes_app. Qed.

Lemma expand_words key mid : length key = 32%nat -> length mid = 16%nat ->
  ss_words 16 (ss_expand_input key mid) = s_matrix key (words_of_bytes mid).
Proof.
  intros Hk Hm. rewrite <- ss_words_eq.
  - unfold ss_expand_input, s_matrix.
    rewrite (words_of_bytes_app 1) by reflexivity.
    rewrite (words_of_bytes_app 4) by (rewrite firstn_length, Hk; reflexivity).
    rewrite (words_of_bytes_app 1) by reflexivity.
    rewrite (words_of_bytes_app 4) by assumption.
    rewrite (words_of_bytes_app 1) by reflexivity.
    rewrite (words_of_bytes_app 4) by (rewrite skipn_length, Hk; reflexivity).
    reflexivity.
  - unfold ss_expand_input. rewrite !app_length, !firstn_length, !skipn_length, Hk, Hm. reflexivity.
Qed.

Lemma counter_words c : words_of_bytes (ss_counter c) = [c mod M32; (c / M32) mod M32].
Proof.
  unfold ss_counter. cbn [map words_of_bytes from_le].
  change (2 ^ (8 * 0)) with 1. change (2 ^ (8 * 1)) with 256. change (2 ^ (8 * 2)) with 65536.
  change (2 ^ (8 * 3)) with 16777216. change (2 ^ (8 * 4)) with M32. change (2 ^ (8 * 5)) with (M32 * 256).
  change (2 ^ (8 * 6)) with (M32 * 65536). change (2 ^ (8 * 7)) with (M32 * 16777216). change (2 ^ 8) with 256.
  rewrite <- !(N.div_div c M32) by discriminate. rewrite N.div_1_r.
  assert (E : forall x, x mod 256 + 256 * (x / 256 mod 256 + 256 * (x / 65536 mod 256 + 256 * (x / 16777216 mod 256 + 256 * 0))) = x mod M32).
  { intros x. lia. }
  rewrite !E. reflexivity.
Qed.

Lemma s_state_spec key iv c : length key = 32%nat -> length iv = 8%nat ->
  s_state key iv c = ss_words 16 (ss_expand_input key (iv ++ ss_counter c)).
Proof.
  intros Hk Hi. rewrite expand_words.
  - rewrite (words_of_bytes_app 2) by assumption. rewrite counter_words. reflexivity.
  - assumption.
  - rewrite app_length, Hi. reflexivity.
Qed.

Lemma s_block_spec n key iv c : length key = 32%nat -> length iv = 8%nat -> bytes key -> bytes iv ->
  bytes_of_words (s_run_rounds n (s_state key iv c)) = ss_block n key iv c.
Proof.
  intros Hk Hi Bk Bi. rewrite s_run_rounds_spec by (apply s_state_wf; assumption).
  rewrite ss_bytes_eq, s_state_spec by assumption. reflexivity.
Qed.

(** ** Counter *)
Definition s_ctr (st : list N) : N := get st 8 + M32 * get st 9.
Definition s_adv (k : N) (st : list N) : list N :=
  let c := (s_ctr st + k) mod M64 in upd (upd st 8 (c mod M32)) 9 (c / M32).

Lemma s_get_pos st : salsa_get_pos st = s_ctr st.
Proof. unfold salsa_get_pos, s_ctr. rewrite N.shiftl_mul_pow2, <- M32_pow. lia. Qed.
Lemma s_ctr_lt st : wf16 st -> s_ctr st < M64.
Proof.
  intros [_ Hw]. unfold s_ctr. pose proof (Forall_get W32 st 8 Hw ltac:(reflexivity)) as A.
  pose proof (Forall_get W32 st 9 Hw ltac:(reflexivity)) as B. unfold W32 in *. lia.
Qed.
Lemma s_set_pos st pos : pos < M64 -> salsa_set_pos st pos = upd (upd st 8 (pos mod M32)) 9 (pos / M32).
Proof.
  intros H. unfold salsa_set_pos, as_u32. change 0xffffffff with (N.ones 32).
  rewrite !N.land_ones, N.shiftr_div_pow2, <- M32_pow. rewrite !N.mod_mod by discriminate.
  replace (pos / M32 mod M32) with (pos / M32) by lia. reflexivity.
Qed.
Lemma s_adv_wf k st : wf16 st -> wf16 (s_adv k st).
Proof.
  intros [Hl Hw]. unfold s_adv. cbv zeta. split; [rewrite !upd_length; assumption|].
  apply Forall_upd; [apply Forall_upd; [assumption|]|]; unfold W32; lia.
Qed.
Lemma s_adv_0 st : wf16 st -> s_adv 0 st = st.
Proof.
  intros [Hl Hw]. destr16 st Hl. unfold words in Hw. inv_forall. unfold W32 in *.
  unfold s_adv, s_ctr, get; cbn [upd nth]. repeat f_equal; lia.
Qed.
Lemma s_ctr_adv k st : wf16 st -> s_ctr (s_adv k st) = (s_ctr st + k) mod M64.
Proof.
  intros [Hl Hw]. destr16 st Hl. unfold s_adv, s_ctr, get; cbn [upd nth]. apply split32.
Qed.
Lemma s_adv_add j k st : wf16 st -> s_adv j (s_adv k st) = s_adv (k + j) st.
Proof.
  intros [Hl Hw]. destr16 st Hl. unfold words in Hw. inv_forall. unfold W32 in *.
  unfold s_adv, s_ctr, get; cbn [upd nth].
  rewrite split32. rewrite N.add_mod_idemp_l by discriminate. rewrite N.add_assoc. reflexivity.
Qed.
Lemma s_adv_state key iv c k : length key = 32%nat -> length iv = 8%nat ->
  s_adv k (s_state key iv c) = s_state key iv (c + k).
Proof.
  intros Hk Hi. unfold s_state, s_matrix. destruct (half_key key Hk) as [H1 H2].
  pose proof (words_of_bytes_length 2 iv Hi) as H3.
  set (a := words_of_bytes (firstn 16 key)) in *. set (b := words_of_bytes (skipn 16 key)) in *.
  set (i := words_of_bytes iv) in *. clearbody a b i. len4 a H1. len4 b H2. len2 i H3.
  unfold s_adv, s_ctr, get; cbn [app upd nth].
  replace (c mod M32 + M32 * (c / M32 mod M32)) with (c mod M64) by lia.
  rewrite N.add_mod_idemp_l by discriminate.
  replace (((c + k) mod M64) mod M32) with ((c + k) mod M32) by lia.
  replace ((c + k) mod M64 / M32) with (((c + k) / M32) mod M32) by lia. reflexivity.
Qed.

(** ** Generating blocks *)
Definition s_blocks (n k : nat) (st : list N) : list N :=
  flat_map (fun i => bytes_of_words (s_run_rounds n (s_adv (N.of_nat i) st))) (seq 0 k).
Lemma s_blocks_S n k st : wf16 st ->
  s_blocks n (S k) st = bytes_of_words (s_run_rounds n st) ++ s_blocks n k (s_adv 1 st).
Proof.
  intros H. unfold s_blocks. cbn [seq flat_map]. change (N.of_nat 0) with 0. rewrite s_adv_0 by assumption.
  f_equal. rewrite <- seq_shift, flat_map_concat_map, map_map, <- flat_map_concat_map.
  apply flat_map_ext. intros i. rewrite s_adv_add by assumption. repeat f_equal. lia.
Qed.

Lemma salsa_gen_ok ck n st : wf16 st -> (ck = true -> s_ctr st + 1 < M64) ->
  salsa_gen_ks_block ck n st = Ok (bytes_of_words (s_run_rounds n st), s_adv 1 st).
Proof.
  intros Hwf Hck. unfold salsa_gen_ks_block. cbv zeta. rewrite s_get_pos. unfold add_ck.
  pose proof (s_ctr_lt st Hwf) as Hlt.
  destruct (N.ltb_spec (s_ctr st + 1) M64) as [H|H].
  - cbn [bind]. rewrite s_set_pos by assumption. unfold s_adv. cbv zeta. rewrite (N.mod_small _ _ H). reflexivity.
  - destruct ck; [specialize (Hck eq_refl); lia|]. cbn [bind].
    rewrite s_set_pos by (apply N.mod_lt; discriminate). reflexivity.
Qed.
Lemma salsa_gen_panic n st : wf16 st -> s_ctr st = M64 - 1 -> salsa_gen_ks_block true n st = Panic.
Proof.
  intros Hwf E. unfold salsa_gen_ks_block. cbv zeta. rewrite s_get_pos, E. reflexivity.
Qed.

Lemma salsa_write_ok ck n k st : wf16 st -> (ck = true -> s_ctr st + N.of_nat k < M64) ->
  salsa_write ck n k st = Ok (s_blocks n k st, s_adv (N.of_nat k) st).
Proof.
  revert st; induction k as [|k IH]; intros st Hwf Hck; cbn [salsa_write].
  - change (N.of_nat 0) with 0. rewrite s_adv_0 by assumption. reflexivity.
  - rewrite salsa_gen_ok by (try assumption; intros E; specialize (Hck E); lia). cbn [bind].
    rewrite IH.
    + cbn [bind]. rewrite s_blocks_S, s_adv_add by assumption. repeat f_equal. lia.
    + apply s_adv_wf; assumption.
    + intros E. specialize (Hck E). rewrite s_ctr_adv by assumption. rewrite N.mod_small; lia.
Qed.
Lemma salsa_write_panic n k st : wf16 st -> M64 <= s_ctr st + N.of_nat k -> salsa_write true n k st = Panic.
Proof.
  revert st; induction k as [|k IH]; intros st Hwf H; cbn [salsa_write].
  - pose proof (s_ctr_lt st Hwf). lia.
  - destruct (N.eq_dec (s_ctr st) (M64 - 1)) as [E|E].
    + rewrite salsa_gen_panic by assumption. reflexivity.
    + pose proof (s_ctr_lt st Hwf).
      rewrite salsa_gen_ok by (try assumption; intros _; lia). cbn [bind].
      rewrite IH; [reflexivity | apply s_adv_wf; assumption |].
      rewrite s_ctr_adv by assumption. rewrite N.mod_small; lia.
Qed.

Lemma s_blocks_spec n k key iv c : length key = 32%nat -> length iv = 8%nat -> bytes key -> bytes iv ->
  s_blocks n k (s_state key iv c) = flat_map (fun i => ss_block n key iv (c + N.of_nat i)) (seq 0 k).
Proof.
  intros Hk Hi Bk Bi. unfold s_blocks. apply flat_map_ext. intros i.
  rewrite s_adv_state by assumption. apply s_block_spec; assumption.
Qed.
Lemma ss_block_length n key iv c : length key = 32%nat -> length iv = 8%nat -> bytes key -> bytes iv ->
  length (ss_block n key iv c) = 64%nat.
Proof.
  intros Hk Hi Bk Bi. rewrite <- s_block_spec by assumption. rewrite bytes_of_words_length.
  destruct (s_run_rounds_wf n _ (s_state_wf key iv c Hk Hi Bk Bi)) as [-> _]. reflexivity.
Qed.

(** ** HSalsa, XSalsa *)
Lemma hsalsa_eq n key input : length key = 32%nat -> length input = 16%nat ->
  hsalsa n key input =
  bytes_of_words (map (get (iter_n n s_double_round (s_matrix key (words_of_bytes input)))) [0; 5; 10; 15; 6; 7; 8; 9]%nat).
Proof.
  intros Hk Hi. unfold hsalsa, s_matrix. destruct (half_key key Hk) as [H1 H2].
  pose proof (words_of_bytes_length 4 input Hi) as H3. change (slice key 0 16) with (firstn 16 key).
  set (a := words_of_bytes (firstn 16 key)) in *. set (b := words_of_bytes (skipn 16 key)) in *.
  set (i := words_of_bytes input) in *. clearbody a b i. len4 a H1. len4 b H2. len4 i H3.
  cbv zeta. cbn [repeat upd set_words app S_CONSTANTS]. unfold get at 1 2 3 4. cbn [nth].
  unfold bytes_of_words. rewrite flat_map_concat_map, (flat_map_concat_map (to_le 4)), map_map. reflexivity.
Qed.
Lemma hsalsa_length n key input : length key = 32%nat -> length input = 16%nat -> length (hsalsa n key input) = 32%nat.
Proof. intros. rewrite hsalsa_eq by assumption. rewrite bytes_of_words_length, map_length. reflexivity. Qed.
Lemma hsalsa_bytes n key input : length key = 32%nat -> length input = 16%nat -> bytes (hsalsa n key input).
Proof. intros. rewrite hsalsa_eq by assumption. apply bytes_of_words_bytes. Qed.
Lemma hsalsa_spec n key input : length key = 32%nat -> length input = 16%nat -> bytes key -> bytes input ->
  hsalsa n key input = ss_hsalsa n key input.
Proof.
  intros Hk Hi Bk Bi. rewrite hsalsa_eq by assumption. unfold ss_hsalsa. cbv zeta.
  rewrite expand_words by assumption. rewrite iter_s_spec.
  - rewrite ss_bytes_eq. reflexivity.
  - apply s_matrix_wf; try assumption.
    + apply (words_of_bytes_length 4). assumption.
    + apply words_of_bytes_wf. assumption.
Qed.
Lemma xsalsa_new_eq n key iv : length key = 32%nat -> length iv = 24%nat ->
  xsalsa_new n key iv = s_state (hsalsa n key (firstn 16 iv)) (skipn 16 iv) 0.
Proof.
  intros Hk Hi. unfold xsalsa_new. cbv zeta. apply salsa_new_eq.
  - apply hsalsa_length; [assumption|]. rewrite firstn_length, Hi. reflexivity.
  - rewrite skipn_length, Hi. reflexivity.
Qed.
