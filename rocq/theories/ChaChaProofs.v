(** Portable ChaCha: the model equals the specification; counter arithmetic. *)
From Verif Require Import Word WordLemmas Res SpecChaCha ChaChaCore ChaChaBackend ChaChaSoft.
From Coq Require Import ZArith Lia ZifyBool ZifyNat ZifyN.
Ltac Zify.zify_post_hook ::= Z.div_mod_to_equations.

(** A core state: sixteen 32-bit words. *)
Definition wf16 (st : list N) : Prop := length st = 16%nat /\ words st.

Ltac destr16 st H :=
  let rec go st n :=
    match n with
    | O => destruct st; [|cbn in H; discriminate H]
    | S ?n' => let x := fresh "x" in let t := fresh "t" in
               destruct st as [|x t]; [cbn in H; discriminate H|]; go t n'
    end in go st 16%nat.

(** The four outputs of a quarter round, as functions of its inputs. *)
Section QR.
  Variables a b c d : N.
  Definition q_a1 := add32 a b.
  Definition q_d1 := rotl32 (xor32 d q_a1) 16.
  Definition q_c1 := add32 c q_d1.
  Definition q_b1 := rotl32 (xor32 b q_c1) 12.
  Definition qa := add32 q_a1 q_b1.
  Definition qd := rotl32 (xor32 q_d1 qa) 8.
  Definition qc := add32 q_c1 qd.
  Definition qb := rotl32 (xor32 q_b1 qc) 7.
End QR.

Lemma qa_lt a b c d : qa a b c d < M32. Proof. apply add32_lt. Qed.
Lemma qc_lt a b c d : qc a b c d < M32. Proof. apply add32_lt. Qed.
Lemma qd_lt a b c d : qd a b c d < M32. Proof. apply rotl32_lt. lia. Qed.
Lemma qb_lt a b c d : qb a b c d < M32. Proof. apply rotl32_lt. lia. Qed.

Lemma qr_0 x0 x1 x2 x3 x4 x5 x6 x7 x8 x9 x10 x11 x12 x13 x14 x15 :
  quarter_round 0 4 8 12 [x0;x1;x2;x3;x4;x5;x6;x7;x8;x9;x10;x11;x12;x13;x14;x15] =
  [qa x0 x4 x8 x12; x1; x2; x3; qb x0 x4 x8 x12; x5; x6; x7; qc x0 x4 x8 x12; x9; x10; x11; qd x0 x4 x8 x12; x13; x14; x15].
Proof. cbv [quarter_round upd get nth qa qb qc qd q_a1 q_b1 q_c1 q_d1]. reflexivity. Qed.
Lemma qr_1 x0 x1 x2 x3 x4 x5 x6 x7 x8 x9 x10 x11 x12 x13 x14 x15 :
  quarter_round 1 5 9 13 [x0;x1;x2;x3;x4;x5;x6;x7;x8;x9;x10;x11;x12;x13;x14;x15] =
  [x0; qa x1 x5 x9 x13; x2; x3; x4; qb x1 x5 x9 x13; x6; x7; x8; qc x1 x5 x9 x13; x10; x11; x12; qd x1 x5 x9 x13; x14; x15].
Proof. cbv [quarter_round upd get nth qa qb qc qd q_a1 q_b1 q_c1 q_d1]. reflexivity. Qed.
Lemma qr_2 x0 x1 x2 x3 x4 x5 x6 x7 x8 x9 x10 x11 x12 x13 x14 x15 :
  quarter_round 2 6 10 14 [x0;x1;x2;x3;x4;x5;x6;x7;x8;x9;x10;x11;x12;x13;x14;x15] =
  [x0; x1; qa x2 x6 x10 x14; x3; x4; x5; qb x2 x6 x10 x14; x7; x8; x9; qc x2 x6 x10 x14; x11; x12; x13; qd x2 x6 x10 x14; x15].
Proof. cbv [quarter_round upd get nth qa qb qc qd q_a1 q_b1 q_c1 q_d1]. reflexivity. Qed.
Lemma qr_3 x0 x1 x2 x3 x4 x5 x6 x7 x8 x9 x10 x11 x12 x13 x14 x15 :
  quarter_round 3 7 11 15 [x0;x1;x2;x3;x4;x5;x6;x7;x8;x9;x10;x11;x12;x13;x14;x15] =
  [x0; x1; x2; qa x3 x7 x11 x15; x4; x5; x6; qb x3 x7 x11 x15; x8; x9; x10; qc x3 x7 x11 x15; x12; x13; x14; qd x3 x7 x11 x15].
Proof. cbv [quarter_round upd get nth qa qb qc qd q_a1 q_b1 q_c1 q_d1]. reflexivity. Qed.
Lemma qr_4 x0 x1 x2 x3 x4 x5 x6 x7 x8 x9 x10 x11 x12 x13 x14 x15 :
  quarter_round 0 5 10 15 [x0;x1;x2;x3;x4;x5;x6;x7;x8;x9;x10;x11;x12;x13;x14;x15] =
  [qa x0 x5 x10 x15; x1; x2; x3; x4; qb x0 x5 x10 x15; x6; x7; x8; x9; qc x0 x5 x10 x15; x11; x12; x13; x14; qd x0 x5 x10 x15].
Proof. cbv [quarter_round upd get nth qa qb qc qd q_a1 q_b1 q_c1 q_d1]. reflexivity. Qed.
Lemma qr_5 x0 x1 x2 x3 x4 x5 x6 x7 x8 x9 x10 x11 x12 x13 x14 x15 :
  quarter_round 1 6 11 12 [x0;x1;x2;x3;x4;x5;x6;x7;x8;x9;x10;x11;x12;x13;x14;x15] =
  [x0; qa x1 x6 x11 x12; x2; x3; x4; x5; qb x1 x6 x11 x12; x7; x8; x9; x10; qc x1 x6 x11 x12; qd x1 x6 x11 x12; x13; x14; x15].
Proof. cbv [quarter_round upd get nth qa qb qc qd q_a1 q_b1 q_c1 q_d1]. reflexivity. Qed.
Lemma qr_6 x0 x1 x2 x3 x4 x5 x6 x7 x8 x9 x10 x11 x12 x13 x14 x15 :
  quarter_round 2 7 8 13 [x0;x1;x2;x3;x4;x5;x6;x7;x8;x9;x10;x11;x12;x13;x14;x15] =
  [x0; x1; qa x2 x7 x8 x13; x3; x4; x5; x6; qb x2 x7 x8 x13; qc x2 x7 x8 x13; x9; x10; x11; x12; qd x2 x7 x8 x13; x14; x15].
Proof. cbv [quarter_round upd get nth qa qb qc qd q_a1 q_b1 q_c1 q_d1]. reflexivity. Qed.
Lemma qr_7 x0 x1 x2 x3 x4 x5 x6 x7 x8 x9 x10 x11 x12 x13 x14 x15 :
  quarter_round 3 4 9 14 [x0;x1;x2;x3;x4;x5;x6;x7;x8;x9;x10;x11;x12;x13;x14;x15] =
  [x0; x1; x2; qa x3 x4 x9 x14; qb x3 x4 x9 x14; x5; x6; x7; x8; qc x3 x4 x9 x14; x10; x11; x12; x13; qd x3 x4 x9 x14; x15].
Proof. cbv [quarter_round upd get nth qa qb qc qd q_a1 q_b1 q_c1 q_d1]. reflexivity. Qed.
Global Opaque qa qb qc qd quarter_round.

Lemma double_round_eq x0 x1 x2 x3 x4 x5 x6 x7 x8 x9 x10 x11 x12 x13 x14 x15 :
  double_round [x0;x1;x2;x3;x4;x5;x6;x7;x8;x9;x10;x11;x12;x13;x14;x15] =
  let y0 := qa x0 x4 x8 x12 in let y4 := qb x0 x4 x8 x12 in
  let y8 := qc x0 x4 x8 x12 in let y12 := qd x0 x4 x8 x12 in
  let y1 := qa x1 x5 x9 x13 in let y5 := qb x1 x5 x9 x13 in
  let y9 := qc x1 x5 x9 x13 in let y13 := qd x1 x5 x9 x13 in
  let y2 := qa x2 x6 x10 x14 in let y6 := qb x2 x6 x10 x14 in
  let y10 := qc x2 x6 x10 x14 in let y14 := qd x2 x6 x10 x14 in
  let y3 := qa x3 x7 x11 x15 in let y7 := qb x3 x7 x11 x15 in
  let y11 := qc x3 x7 x11 x15 in let y15 := qd x3 x7 x11 x15 in
  [qa y0 y5 y10 y15; qa y1 y6 y11 y12; qa y2 y7 y8 y13; qa y3 y4 y9 y14;
   qb y3 y4 y9 y14; qb y0 y5 y10 y15; qb y1 y6 y11 y12; qb y2 y7 y8 y13;
   qc y2 y7 y8 y13; qc y3 y4 y9 y14; qc y0 y5 y10 y15; qc y1 y6 y11 y12;
   qd y1 y6 y11 y12; qd y2 y7 y8 y13; qd y3 y4 y9 y14; qd y0 y5 y10 y15].
Proof. unfold double_round. rewrite qr_0, qr_1, qr_2, qr_3, qr_4, qr_5, qr_6, qr_7. reflexivity. Qed.
Global Opaque double_round.

(** ** Shape and range are preserved *)
Lemma double_round_wf st : length st = 16%nat -> wf16 (double_round st).
Proof.
  intros H. destr16 st H. rewrite double_round_eq. split; [reflexivity|].
  unfold words, W32. repeat constructor; auto using qa_lt, qb_lt, qc_lt, qd_lt.
Qed.

Lemma iter_double_round_wf n st : wf16 st -> wf16 (iter_n n double_round st).
Proof.
  intros H. apply (iter_n_inv wf16); [assumption|]. intros y [Hy _]. apply double_round_wf; assumption.
Qed.

Lemma zip_add32_length a b : length (zip_add32 a b) = length a.
Proof. revert b; induction a as [|x a IH]; intros [|y b]; cbn [zip_add32 length]; auto. Qed.
Lemma zip_add32_words a b : words a -> words (zip_add32 a b).
Proof.
  intros H. revert b; induction H as [|x a Hx Ha IH]; intros [|y b]; cbn [zip_add32];
    constructor; try apply add32_lt; try assumption; apply IH.
Qed.
Lemma run_rounds_wf n st : wf16 st -> wf16 (run_rounds n st).
Proof.
  intros H. pose proof (iter_double_round_wf n st H) as [Hl Hw]. unfold run_rounds. split.
  - rewrite zip_add32_length. assumption.
  - apply zip_add32_words. assumption.
Qed.

(** ** Model = specification, one block *)
Lemma rotl32_spec x r : x < M32 -> r <= 32 -> rotl32 x r = sp_roll x r.
Proof.
  intros Hx Hr. rewrite rotl32_arith by assumption. unfold sp_roll.
  rewrite (N.mod_small x) by (rewrite <- M32_pow; assumption). reflexivity.
Qed.
Lemma add32_spec x y : add32 x y = sp_plus x y.
Proof. reflexivity. Qed.

Transparent qa qb qc qd.
Lemma sp_QR_eq a b c d : b < M32 -> d < M32 ->
  sp_QR a b c d = (qa a b c d, qb a b c d, qc a b c d, qd a b c d).
Proof.
  intros Hb Hd. unfold sp_QR. cbv zeta.
  assert (E1 : sp_roll (N.lxor d (sp_plus a b)) 16 = q_d1 a b d).
  { symmetry. apply rotl32_spec; [apply xor32_lt; [assumption | apply add32_lt] | lia]. }
  rewrite E1.
  assert (E2 : sp_roll (N.lxor b (sp_plus c (q_d1 a b d))) 12 = q_b1 a b c d).
  { symmetry. apply rotl32_spec; [apply xor32_lt; [assumption | apply add32_lt] | lia]. }
  rewrite E2.
  assert (E3 : sp_roll (N.lxor (q_d1 a b d) (sp_plus (sp_plus a b) (q_b1 a b c d))) 8 = qd a b c d).
  { symmetry. apply rotl32_spec; [apply xor32_lt; [apply rotl32_lt; lia | apply add32_lt] | lia]. }
  rewrite E3.
  assert (E4 : sp_roll (N.lxor (q_b1 a b c d) (sp_plus (sp_plus c (q_d1 a b d)) (qd a b c d))) 7 = qb a b c d).
  { symmetry. apply rotl32_spec; [apply xor32_lt; [apply rotl32_lt; lia | apply add32_lt] | lia]. }
  rewrite E4. reflexivity.
Qed.
Opaque qa qb qc qd sp_QR.

Lemma double_round_spec st : wf16 st -> double_round st = sp_double_round st.
Proof.
  intros [Hl Hw]. destr16 st Hl. rewrite double_round_eq. unfold words in Hw. inv_forall. unfold W32 in *.
  cbn [sp_double_round].
  repeat rewrite sp_QR_eq by auto using qa_lt, qb_lt, qc_lt, qd_lt.
  reflexivity.
Qed.

Lemma iter_double_round_spec n st : wf16 st -> iter_n n double_round st = sp_rounds n st.
Proof.
  intros H. unfold sp_rounds. induction n as [|n IH]; [reflexivity|].
  rewrite iter_n_S_out. cbn [Nat.iter nat_rect]. fold (Nat.iter n sp_double_round st).
  rewrite <- IH. apply double_round_spec. apply iter_double_round_wf; assumption.
Qed.

Lemma zip_add32_spec a b : length a = length b ->
  zip_add32 a b = map (fun p => sp_plus (fst p) (snd p)) (combine a b).
Proof.
  revert b; induction a as [|x a IH]; intros [|y b] H; cbn in H; try discriminate; [reflexivity|].
  cbn [zip_add32 combine map fst snd]. rewrite IH by congruence. reflexivity.
Qed.

Lemma run_rounds_spec n st : wf16 st -> run_rounds n st = sp_core n st.
Proof.
  intros H. unfold run_rounds, sp_core. rewrite <- iter_double_round_spec by assumption.
  apply zip_add32_spec. pose proof (iter_double_round_wf n st H) as [Hl _].
  destruct H as [H _]. congruence.
Qed.

Lemma to_le4_spec w : to_le 4 w = [sp_byte w 0; sp_byte w 1; sp_byte w 2; sp_byte w 3].
Proof.
  unfold sp_byte. cbn [to_le].
  rewrite !N.div_div by discriminate.
  change (2 ^ (8 * 0)) with 1. change (2 ^ (8 * 1)) with 256.
  change (2 ^ (8 * 2)) with (256 * 256). change (2 ^ (8 * 3)) with (256 * 256 * 256).
  change (2 ^ 8) with 256. rewrite N.div_1_r. reflexivity.
Qed.
Lemma bytes_of_words_spec l : bytes_of_words l = sp_serialize l.
Proof.
  unfold bytes_of_words, sp_serialize. apply flat_map_ext. intros w. apply to_le4_spec.
Qed.

Lemma words_of_bytes_spec n : forall b, length b = (4 * n)%nat -> words_of_bytes b = sp_words n b.
Proof.
  induction n as [|n IH]; intros b H.
  - destruct b; [reflexivity|discriminate].
  - destruct b as [|b0 [|b1 [|b2 [|b3 t]]]]; cbn in H; try lia.
    cbn [words_of_bytes]. unfold sp_words. cbn [seq map]. f_equal.
    + unfold sp_word. cbn [Nat.mul Nat.add nth from_le]. change (2^8) with 256.
      change (2^16) with 65536. change (2^24) with 16777216. lia.
    + rewrite IH by lia. unfold sp_words. rewrite <- seq_shift, map_map. apply map_ext. intros i.
      unfold sp_word. replace (4 * S i)%nat with (S (S (S (S (4 * i))))) by lia. reflexivity.
Qed.

Lemma CONSTANTS_spec : CONSTANTS = sp_constants.
Proof. reflexivity. Qed.
Lemma CONSTANTS_words : words CONSTANTS.
Proof. unfold words, W32, CONSTANTS. repeat constructor. Qed.

(** ** Construction *)
Definition nonce_len (v : variant) : nat := match v with Ietf => 12 | Legacy => 8 end.
(** Counter words of an initial state. *)
Definition ctr_words (v : variant) (c : N) : list N :=
  match v with Ietf => [c mod M32] | Legacy => [c mod M32; (c / M32) mod M32] end.
Definition mk_state (v : variant) (key nonce : list N) (c : N) : list N :=
  CONSTANTS ++ words_of_bytes key ++ ctr_words v c ++ words_of_bytes nonce.

Lemma zip_assign_all dst src : length dst = length src -> zip_assign dst src = src.
Proof.
  revert src; induction dst as [|d dst IH]; intros [|s src] H; cbn in H; try discriminate; [reflexivity|].
  cbn [zip_assign]. rewrite IH by congruence. reflexivity.
Qed.

Lemma new_internal_ok v key iv : length key = 32%nat -> length iv = nonce_len v ->
  new_internal v key iv = Ok (mk_state v key iv 0).
Proof.
  intros Hk Hi. unfold new_internal, mk_state.
  assert (Hkw : length (words_of_bytes key) = 8%nat) by (apply words_of_bytes_length; assumption).
  destruct v; cbn in Hi; rewrite Hi; cbn [Nat.eqb orb assert_ bind counter_size];
    change (length CONSTANTS) with 4%nat; cbn [repeat firstn skipn length Nat.mul Nat.add Nat.eqb assert_ bind].
  - assert (Hiw : length (words_of_bytes iv) = 3%nat) by (apply words_of_bytes_length; assumption).
    change (4 / 4)%nat with 1%nat. cbn [firstn skipn length Nat.mul Nat.add Nat.eqb assert_ bind].
    rewrite !zip_assign_all by (cbn [length]; congruence). reflexivity.
  - assert (Hiw : length (words_of_bytes iv) = 2%nat) by (apply words_of_bytes_length; assumption).
    change (8 / 4)%nat with 2%nat. cbn [firstn skipn length Nat.mul Nat.add Nat.eqb assert_ bind].
    rewrite !zip_assign_all by (cbn [length]; congruence). reflexivity.
Qed.

Lemma ctr_words_wf v c : words (ctr_words v c).
Proof. unfold words, W32. destruct v; cbn; repeat constructor; apply N.mod_lt; discriminate. Qed.
Lemma mk_state_wf v key iv c : length key = 32%nat -> length iv = nonce_len v -> bytes key -> bytes iv ->
  wf16 (mk_state v key iv c).
Proof.
  intros Hk Hi Bk Bi. unfold mk_state. split.
  - rewrite !app_length. rewrite (words_of_bytes_length 8 key Hk). destruct v; cbn in Hi.
    + rewrite (words_of_bytes_length 3 iv Hi). reflexivity.
    + rewrite (words_of_bytes_length 2 iv Hi). reflexivity.
  - unfold words. rewrite !Forall_app. repeat split.
    + apply CONSTANTS_words. + apply words_of_bytes_wf; assumption.
    + apply ctr_words_wf. + apply words_of_bytes_wf; assumption.
Qed.

(** The specification's state and block for either variant. *)
Definition spec_block (v : variant) (n : nat) (key : list N) (c : N) (nonce : list N) : list N :=
  match v with Ietf => sp_ietf_block n key c nonce | Legacy => sp_djb_block n key c nonce end.

Lemma mk_state_spec v key iv c : length key = 32%nat -> length iv = nonce_len v ->
  mk_state v key iv c = match v with Ietf => sp_ietf_state key c iv | Legacy => sp_djb_state key c iv end.
Proof.
  intros Hk Hi. unfold mk_state. rewrite (words_of_bytes_spec 8 key Hk), CONSTANTS_spec.
  destruct v; cbn in Hi.
  - rewrite (words_of_bytes_spec 3 iv Hi). reflexivity.
  - rewrite (words_of_bytes_spec 2 iv Hi). reflexivity.
Qed.

Lemma block_spec v n key iv c : length key = 32%nat -> length iv = nonce_len v -> bytes key -> bytes iv ->
  bytes_of_words (run_rounds n (mk_state v key iv c)) = spec_block v n key c iv.
Proof.
  intros Hk Hi Bk Bi. rewrite run_rounds_spec by (apply mk_state_wf; assumption).
  rewrite bytes_of_words_spec, mk_state_spec by assumption. destruct v; reflexivity.
Qed.

(** ** Counter arithmetic *)
(** Advancing the counter of a state by [k] blocks. *)
Definition ctr64 (st : list N) : N := get st 12 + M32 * get st 13.
Definition adv (v : variant) (k : N) (st : list N) : list N :=
  match v with
  | Ietf => upd st 12 ((get st 12 + k) mod M32)
  | Legacy => let c := (ctr64 st + k) mod M64 in upd (upd st 12 (c mod M32)) 13 (c / M32)
  end.

Lemma adv_length v k st : length (adv v k st) = length st.
Proof. destruct v; cbn [adv]; cbv zeta; rewrite ?upd_length; reflexivity. Qed.

Lemma adv_wf v k st : wf16 st -> wf16 (adv v k st).
Proof.
  intros [Hl Hw]. split; [rewrite adv_length; assumption|]. unfold words in *.
  destruct v; cbn [adv]; cbv zeta.
  - apply Forall_upd; [assumption|]. apply N.mod_lt. discriminate.
  - apply Forall_upd; [apply Forall_upd; [assumption|]|].
    + apply N.mod_lt. discriminate.
    + unfold W32. lia.
Qed.

Lemma adv_0 v st : wf16 st -> adv v 0 st = st.
Proof.
  intros [Hl Hw]. destr16 st Hl. unfold words in Hw. inv_forall. unfold W32 in *.
  destruct v; unfold adv, ctr64, get; cbn [upd nth].
  - repeat f_equal. lia.
  - repeat f_equal; lia.
Qed.

Lemma split32 c : c mod M32 + M32 * (c / M32) = c.
Proof. lia. Qed.

Lemma adv_add v j k st : wf16 st -> adv v j (adv v k st) = adv v (k + j) st.
Proof.
  intros [Hl Hw]. destr16 st Hl. unfold words in Hw. inv_forall. unfold W32 in *.
  destruct v; unfold adv, ctr64, get; cbn [upd nth].
  - rewrite N.add_mod_idemp_l by discriminate. rewrite N.add_assoc. reflexivity.
  - rewrite split32. rewrite N.add_mod_idemp_l by discriminate. rewrite N.add_assoc. reflexivity.
Qed.

Lemma lor_ctr st : words st -> N.lor (N.shiftl (get st 13) 32) (get st 12) = ctr64 st.
Proof.
  intros H. rewrite lor_shift_add.
  - unfold ctr64. rewrite <- M32_pow. lia.
  - rewrite <- M32_pow. apply (Forall_get W32); [assumption | reflexivity].
Qed.

Lemma soft_gen_ks_block_eq v n st : wf16 st ->
  soft_gen_ks_block v n st = (bytes_of_words (run_rounds n st), adv v 1 st).
Proof.
  intros [Hl Hw]. unfold soft_gen_ks_block. cbv zeta. rewrite lor_ctr by assumption.
  destr16 st Hl. unfold words in Hw. inv_forall. unfold W32 in *.
  unfold as_u32, add64. rewrite N.shiftr_div_pow2, <- M32_pow.
  destruct v; unfold adv, ctr64, get; cbn [upd nth counter_size Nat.eqb]; cbv zeta.
  - match goal with |- context [(?a mod M64) mod M32] =>
      replace ((a mod M64) mod M32) with ((x11 + 1) mod M32) by lia end. reflexivity.
  - match goal with |- context [((?a mod M64) / M32) mod M32] =>
      replace (((a mod M64) / M32) mod M32) with ((a mod M64) / M32) by lia end. reflexivity.
Qed.

(** The [k] blocks starting at state [st], as bytes. *)
Definition blocks_from (v : variant) (n k : nat) (st : list N) : list N :=
  flat_map (fun i => bytes_of_words (run_rounds n (adv v (N.of_nat i) st))) (seq 0 k).

Lemma blocks_from_S v n k st : wf16 st ->
  blocks_from v n (S k) st = bytes_of_words (run_rounds n st) ++ blocks_from v n k (adv v 1 st).
Proof.
  intros H. unfold blocks_from. cbn [seq flat_map]. change (N.of_nat 0) with 0. rewrite adv_0 by assumption.
  f_equal. rewrite <- seq_shift, flat_map_concat_map, map_map, <- flat_map_concat_map.
  apply flat_map_ext. intros i. rewrite adv_add by assumption. repeat f_equal. lia.
Qed.

Lemma blocks_from_add v n j k st : wf16 st ->
  blocks_from v n (j + k) st = blocks_from v n j st ++ blocks_from v n k (adv v (N.of_nat j) st).
Proof.
  intros H. unfold blocks_from. rewrite seq_app, flat_map_app. f_equal. cbn [Nat.add].
  rewrite <- (Nat.add_0_r j) at 1. revert H. generalize 0%nat as a. intros a H.
  assert (Hs : forall k a, seq (j + a) k = map (fun i => (j + i)%nat) (seq a k)).
  { clear. induction k as [|k IH]; intros a; [reflexivity|]. cbn [seq map]. f_equal.
    rewrite <- IH. f_equal. lia. }
  rewrite Hs, flat_map_concat_map, map_map, <- flat_map_concat_map.
  apply flat_map_ext. intros i. rewrite adv_add by assumption. repeat f_equal. lia.
Qed.

Lemma blocks_from_length v n k st : wf16 st -> length (blocks_from v n k st) = (64 * k)%nat.
Proof.
  revert st; induction k as [|k IH]; intros st H; [reflexivity|].
  rewrite blocks_from_S, app_length, IH, bytes_of_words_length by (try apply adv_wf; assumption).
  pose proof (run_rounds_wf n st H) as [Hl _]. rewrite Hl. lia.
Qed.

Lemma gen_ones_soft v n k st : wf16 st ->
  gen_ones (soft_gen_ks_block v n) k st = (blocks_from v n k st, adv v (N.of_nat k) st).
Proof.
  revert st; induction k as [|k IH]; intros st H.
  - cbn [gen_ones]. change (N.of_nat 0) with 0. rewrite adv_0 by assumption. reflexivity.
  - cbn [gen_ones]. rewrite soft_gen_ks_block_eq, IH by (try apply adv_wf; assumption).
    rewrite blocks_from_S, adv_add by assumption. repeat f_equal. lia.
Qed.

(** A backend whose three operations produce consecutive blocks does so for any
    closure.  [R b st]: registers [b] represent core state [st]. *)
Section Refines.
  Context {B : Type} (be : backend B) (v : variant) (n : nat) (R : B -> list N -> Prop).
  Hypothesis Hone : forall b st, wf16 st -> R b st ->
    exists b', gen_one be b = (blocks_from v n 1 st, b') /\ R b' (adv v 1 st).
  (** Default [gen_tail_blocks]. *)
  Lemma default_tail_refines k b st : wf16 st -> R b st -> (k < par_blocks be)%nat ->
    exists b', default_tail (par_blocks be) (gen_one be) k b = Ok (blocks_from v n k st, b')
               /\ R b' (adv v (N.of_nat k) st).
  Proof.
    intros Hwf HR Hk. unfold default_tail. apply Nat.ltb_lt in Hk. rewrite Hk. cbn [assert_ bind].
    clear Hk. revert b st Hwf HR; induction k as [|k IH]; intros b st Hwf HR.
    - exists b. cbn [gen_ones]. split; [reflexivity|]. change (N.of_nat 0) with 0. rewrite adv_0; assumption.
    - destruct (Hone b st Hwf HR) as [b1 [E1 R1]].
      destruct (IH b1 _ (adv_wf v 1 st Hwf) R1) as [b2 [E2 R2]].
      exists b2. cbn [gen_ones]. rewrite E1.
      injection E2 as E2. rewrite E2. split.
      + change (S k) with (1 + k)%nat. rewrite (blocks_from_add v n 1 k st Hwf). reflexivity.
      + rewrite adv_add in R2 by assumption. replace (N.of_nat (S k)) with (1 + N.of_nat k) by lia. assumption.
  Qed.

  Hypothesis Hpar : forall b st, wf16 st -> R b st ->
    exists b', gen_par be b = (blocks_from v n (par_blocks be) st, b')
               /\ R b' (adv v (N.of_nat (par_blocks be)) st).
  Hypothesis Htail : forall b st k, wf16 st -> R b st -> (k < par_blocks be)%nat ->
    exists b', gen_tail be k b = Ok (blocks_from v n k st, b') /\ R b' (adv v (N.of_nat k) st).

  Lemma run_reqs_refines l : forall b st, wf16 st -> R b st ->
    forallb (req_ok (par_blocks be)) l = true ->
    exists b', run_reqs be l b = Ok (blocks_from v n (reqs_blocks (par_blocks be) l) st, b')
               /\ R b' (adv v (N.of_nat (reqs_blocks (par_blocks be) l)) st).
  Proof.
    induction l as [|r l IH]; intros b st Hwf HR Hok.
    - exists b. cbn [run_reqs reqs_blocks fold_right]. split; [reflexivity|].
      change (N.of_nat 0) with 0. rewrite adv_0; assumption.
    - cbn [forallb] in Hok. apply andb_prop in Hok as [Hr Hl].
      assert (Hstep : exists b1,
        match r with One => Ok (gen_one be b) | Par => Ok (gen_par be b) | Tail k => gen_tail be k b end
        = Ok (blocks_from v n (req_blocks (par_blocks be) r) st, b1)
        /\ R b1 (adv v (N.of_nat (req_blocks (par_blocks be) r)) st)).
      { destruct r as [| |k]; cbn [req_blocks].
        - destruct (Hone b st Hwf HR) as [b1 [-> ?]]. exists b1; split; [reflexivity|assumption].
        - destruct (Hpar b st Hwf HR) as [b1 [-> ?]]. exists b1; split; [reflexivity|assumption].
        - apply Htail; [assumption..|]. cbn in Hr. apply Nat.ltb_lt in Hr. assumption. }
      destruct Hstep as [b1 [E1 R1]].
      destruct (IH b1 _ (adv_wf v _ st Hwf) R1 Hl) as [b2 [E2 R2]].
      exists b2. cbn [run_reqs reqs_blocks fold_right]. fold (reqs_blocks (par_blocks be) l).
      rewrite E1. cbn [bind]. rewrite E2. cbn [bind].
      rewrite blocks_from_add by assumption. split; [reflexivity|].
      rewrite adv_add in R2 by assumption. rewrite Nat2N.inj_add. assumption.
  Qed.

End Refines.

Lemma blocks_from_1 v n st : wf16 st -> blocks_from v n 1 st = bytes_of_words (run_rounds n st).
Proof. intros H. rewrite blocks_from_S by assumption. apply app_nil_r. Qed.

(** The portable backend, for any closure. *)
Lemma soft_inner_ok v n f st : wf16 st -> forallb (req_ok 1) f = true ->
  soft_inner v n f st = Ok (blocks_from v n (reqs_blocks 1 f) st, adv v (N.of_nat (reqs_blocks 1 f)) st).
Proof.
  intros Hwf Hok. unfold soft_inner.
  assert (Hone : forall b st, wf16 st -> b = st ->
    exists b', gen_one (soft_backend v n) b = (blocks_from v n 1 st, b') /\ b' = adv v 1 st).
  { intros b s Hs ->. exists (adv v 1 s). cbn [gen_one soft_backend].
    rewrite soft_gen_ks_block_eq, blocks_from_1 by assumption. split; reflexivity. }
  destruct (run_reqs_refines (soft_backend v n) v n eq Hone Hone) with (l := f) (b := st) (st := st)
    as [b' [E ->]].
  - intros b s k Hs -> Hk. apply (default_tail_refines (soft_backend v n) v n eq Hone); first [exact Hk | assumption | reflexivity].
  - assumption.
  - reflexivity.
  - assumption.
  - exact E.
Qed.
