(** C53: the ChaCha and Salsa rounds are permutations of the 16-word states, and the
    constructors lose nothing: distinct (key, nonce, counter) never meet. *)
From Verif Require Import Word WordLemmas Res ChaChaCore ChaChaBackend ChaChaSoft ChaChaProofs ChaChaDispatchProofs Salsa SalsaProofs PropCommon.
From Coq Require Import ZArith Lia ZifyBool ZifyNat ZifyN.
Ltac Zify.zify_post_hook ::= Z.div_mod_to_equations.

(** ** Undoing the word operations *)
Lemma rotl_back x r : x < M32 -> r <= 32 -> rotl32 (rotl32 x r) (32 - r) = x.
Proof.
  intros Hx Hr. rewrite M32_pow in Hx.
  assert (P1 := pow2_nz r). assert (P2 := pow2_nz (32 - r)).
  rewrite (rotl32_arith (rotl32 x r)) by lia. replace (32 - (32 - r)) with r by lia.
  rewrite mul_pow2_mod by lia. replace (32 - (32 - r)) with r by lia.
  rewrite (N.mod_small (rotl32 x r) (2 ^ 32)) by (rewrite <- M32_pow; apply rotl32_lt; assumption).
  rewrite rotl32_arith by assumption. rewrite mul_pow2_mod by assumption. rewrite (N.mod_small x (2 ^ 32)) by assumption.
  assert (D : x / 2 ^ (32 - r) < 2 ^ r) by (apply div_pow2_lt; assumption).
  rewrite (N.add_comm (x mod _ * _)). rewrite N.mod_add by assumption. rewrite N.div_add by assumption.
  rewrite (N.mod_small (x / _)) by assumption. rewrite (N.div_small (x / _)) by assumption.
  rewrite N.add_0_l. rewrite N.mul_comm. symmetry. apply N.div_mod. assumption.
Qed.
Lemma rotl_back' x r : x < M32 -> r <= 32 -> rotl32 (rotl32 x (32 - r)) r = x.
Proof. intros Hx Hr. replace r with (32 - (32 - r)) at 2 by lia. apply rotl_back; [assumption|lia]. Qed.
Lemma xor_back a b : xor32 (xor32 a b) b = a.
Proof. unfold xor32. rewrite N.lxor_assoc, N.lxor_nilpotent. apply N.lxor_0_r. Qed.
Lemma sub_add a b : a < M32 -> add32 (sub32 a b) b = a.
Proof. intros H. unfold add32, sub32. lia. Qed.

(** ** ChaCha *)
(** Running the eight lines of a quarter round backwards. *)
Definition undo_qr (a b c d : N) : N * N * N * N :=
  let b := xor32 (rotl32 b (32 - 7)) c in let c := sub32 c d in
  let d := xor32 (rotl32 d (32 - 8)) a in let a := sub32 a b in
  let b := xor32 (rotl32 b (32 - 12)) c in let c := sub32 c d in
  let d := xor32 (rotl32 d (32 - 16)) a in let a := sub32 a b in
  (a, b, c, d).

Lemma undo_qr_do a b c d : a < M32 -> b < M32 -> c < M32 -> d < M32 ->
  undo_qr (qa a b c d) (qb a b c d) (qc a b c d) (qd a b c d) = (a, b, c, d).
Proof.
  intros Ha Hb Hc Hd. unfold undo_qr.
  with_strategy transparent [qa qb qc qd] unfold qc, qb. with_strategy transparent [qa qb qc qd] unfold qc.
  with_strategy transparent [qa qb qc qd] unfold qd. with_strategy transparent [qa qb qc qd] unfold qa.
  set (b1 := q_b1 a b c d). set (c1 := q_c1 a b c d). set (d1 := q_d1 a b d). set (a1 := q_a1 a b).
  assert (Hb1 : b1 < M32) by (apply rotl32_lt; lia). assert (Hc1 : c1 < M32) by apply add32_lt.
  assert (Hd1 : d1 < M32) by (apply rotl32_lt; lia). assert (Ha1 : a1 < M32) by apply add32_lt.
  set (a2 := add32 a1 b1). assert (Ha2 : a2 < M32) by apply add32_lt.
  rewrite (rotl_back (xor32 d1 a2)) by (first [apply xor32_lt; assumption | lia]).
  set (d2 := rotl32 (xor32 d1 a2) 8). set (c2 := add32 c1 d2). assert (Hc2 : c2 < M32) by apply add32_lt.
  rewrite rotl_back by (first [apply xor32_lt; assumption | lia]).
  rewrite !xor_back. unfold c2, a2. rewrite !sub32_add32 by assumption.
  unfold b1, d1, q_b1, q_d1. fold c1 a1.
  rewrite !rotl_back by (first [apply xor32_lt; assumption | lia]). rewrite !xor_back.
  unfold c1, q_c1, a1, q_a1. rewrite !sub32_add32 by assumption.
  fold d1. reflexivity.
Qed.
Lemma do_qr_undo a b c d : a < M32 -> b < M32 -> c < M32 -> d < M32 ->
  let '(a', b', c', d') := undo_qr a b c d in
  qa a' b' c' d' = a /\ qb a' b' c' d' = b /\ qc a' b' c' d' = c /\ qd a' b' c' d' = d
  /\ a' < M32 /\ b' < M32 /\ c' < M32 /\ d' < M32.
Proof.
  intros Ha Hb Hc Hd. unfold undo_qr. cbv zeta.
  set (b1 := xor32 (rotl32 b (32 - 7)) c). set (c1 := sub32 c d). set (d1 := xor32 (rotl32 d (32 - 8)) a).
  set (a1 := sub32 a b1).
  set (b0 := xor32 (rotl32 b1 (32 - 12)) c1). set (c0 := sub32 c1 d1). set (d0 := xor32 (rotl32 d1 (32 - 16)) a1).
  set (a0 := sub32 a1 b0).
  assert (Hb1 : b1 < M32) by (apply xor32_lt; [apply rotl32_lt; lia|assumption]).
  assert (Hd1 : d1 < M32) by (apply xor32_lt; [apply rotl32_lt; lia|assumption]).
  assert (Hc1 : c1 < M32) by apply sub32_lt. assert (Ha1 : a1 < M32) by apply sub32_lt.
  assert (Hb0 : b0 < M32) by (apply xor32_lt; [apply rotl32_lt; lia|assumption]).
  assert (Hd0 : d0 < M32) by (apply xor32_lt; [apply rotl32_lt; lia|assumption]).
  assert (A1 : q_a1 a0 b0 = a1) by (apply sub_add; assumption).
  assert (D1 : q_d1 a0 b0 d0 = d1) by (unfold q_d1; rewrite A1; unfold d0; rewrite xor_back; apply rotl_back'; [assumption|lia]).
  assert (C1 : q_c1 a0 b0 c0 d0 = c1) by (unfold q_c1; rewrite D1; apply sub_add; assumption).
  assert (B1 : q_b1 a0 b0 c0 d0 = b1) by (unfold q_b1; rewrite C1; unfold b0; rewrite xor_back; apply rotl_back'; [assumption|lia]).
  assert (A2 : qa a0 b0 c0 d0 = a) by (with_strategy transparent [qa] unfold qa; rewrite A1, B1; apply sub_add; assumption).
  assert (D2 : qd a0 b0 c0 d0 = d) by (with_strategy transparent [qd] unfold qd; rewrite A2, D1; unfold d1; rewrite xor_back; apply rotl_back'; [assumption|lia]).
  assert (C2 : qc a0 b0 c0 d0 = c) by (with_strategy transparent [qc] unfold qc; rewrite D2, C1; apply sub_add; assumption).
  assert (B2 : qb a0 b0 c0 d0 = b) by (with_strategy transparent [qb] unfold qb; rewrite C2, B1; unfold b1; rewrite xor_back; apply rotl_back'; [assumption|lia]).
  repeat split; try assumption; apply sub32_lt.
Qed.
Global Opaque undo_qr.

(** The eight quarter rounds of a double round, undone in the opposite order. *)
Definition undo_double_round (s : list N) : list N :=
  match s with
  | [x0; x1; x2; x3; x4; x5; x6; x7; x8; x9; x10; x11; x12; x13; x14; x15] =>
      let '(x0, x5, x10, x15) := undo_qr x0 x5 x10 x15 in
      let '(x1, x6, x11, x12) := undo_qr x1 x6 x11 x12 in
      let '(x2, x7, x8, x13) := undo_qr x2 x7 x8 x13 in
      let '(x3, x4, x9, x14) := undo_qr x3 x4 x9 x14 in
      let '(x0, x4, x8, x12) := undo_qr x0 x4 x8 x12 in
      let '(x1, x5, x9, x13) := undo_qr x1 x5 x9 x13 in
      let '(x2, x6, x10, x14) := undo_qr x2 x6 x10 x14 in
      let '(x3, x7, x11, x15) := undo_qr x3 x7 x11 x15 in
      [x0; x1; x2; x3; x4; x5; x6; x7; x8; x9; x10; x11; x12; x13; x14; x15]
  | _ => []
  end.
Lemma undo_double_round_do st : wf16 st -> undo_double_round (double_round st) = st.
Proof.
  intros [Hl Hw]. destr16 st Hl. rewrite double_round_eq. cbv zeta. unfold undo_double_round.
  unfold words in Hw. inv_forall. unfold W32 in *.
  rewrite !(undo_qr_do (qa _ _ _ _)) by auto using qa_lt, qb_lt, qc_lt, qd_lt.
  rewrite !undo_qr_do by assumption. reflexivity.
Qed.
Ltac undo_step :=
  match goal with
  | |- context [undo_qr ?a ?b ?c ?d] =>
      let H := fresh in
      assert (H := do_qr_undo a b c d); 
      destruct (undo_qr a b c d) as [[[? ?] ?] ?];
      destruct H as (? & ? & ? & ? & ? & ? & ? & ?); [assumption|assumption|assumption|assumption|]
  end.
Lemma do_undo_double_round st : wf16 st -> double_round (undo_double_round st) = st /\ wf16 (undo_double_round st).
Proof.
  intros [Hl Hw]. destr16 st Hl. unfold words in Hw. inv_forall. unfold W32 in *. unfold undo_double_round.
  do 8 undo_step. split.
  - rewrite double_round_eq. cbv zeta. congruence.
  - split; [reflexivity|]. unfold words, W32. repeat constructor; assumption.
Qed.

(** ** Salsa *)
Definition undo_sqr (a b c d : N) : N * N * N * N :=
  let a := xor32 a (rotl32 (add32 d c) 18) in
  let d := xor32 d (rotl32 (add32 c b) 13) in
  let c := xor32 c (rotl32 (add32 b a) 9) in
  let b := xor32 b (rotl32 (add32 a d) 7) in
  (a, b, c, d).
Lemma undo_sqr_do a b c d : undo_sqr (z_a a b c d) (z_b a b d) (z_c a b c d) (z_d a b c d) = (a, b, c, d).
Proof.
  unfold undo_sqr. with_strategy transparent [z_a] unfold z_a. rewrite xor_back.
  with_strategy transparent [z_d] unfold z_d. rewrite xor_back.
  with_strategy transparent [z_c] unfold z_c. rewrite xor_back.
  with_strategy transparent [z_b] unfold z_b. rewrite xor_back. reflexivity.
Qed.
Lemma do_sqr_undo a b c d : a < M32 -> b < M32 -> c < M32 -> d < M32 ->
  let '(a', b', c', d') := undo_sqr a b c d in
  z_a a' b' c' d' = a /\ z_b a' b' d' = b /\ z_c a' b' c' d' = c /\ z_d a' b' c' d' = d
  /\ a' < M32 /\ b' < M32 /\ c' < M32 /\ d' < M32.
Proof.
  intros Ha Hb Hc Hd. unfold undo_sqr. cbv zeta.
  set (a0 := xor32 a (rotl32 (add32 d c) 18)). set (d0 := xor32 d (rotl32 (add32 c b) 13)).
  set (c0 := xor32 c (rotl32 (add32 b a0) 9)). set (b0 := xor32 b (rotl32 (add32 a0 d0) 7)).
  assert (B : z_b a0 b0 d0 = b) by (with_strategy transparent [z_b] unfold z_b; unfold b0; apply xor_back).
  assert (C : z_c a0 b0 c0 d0 = c) by (with_strategy transparent [z_c] unfold z_c; rewrite B; unfold c0; apply xor_back).
  assert (D : z_d a0 b0 c0 d0 = d) by (with_strategy transparent [z_d] unfold z_d; rewrite B, C; unfold d0; apply xor_back).
  assert (A : z_a a0 b0 c0 d0 = a) by (with_strategy transparent [z_a] unfold z_a; rewrite D, C; unfold a0; apply xor_back).
  repeat split; try assumption; apply xor32_lt; try assumption; apply rotl32_lt; lia.
Qed.
Global Opaque undo_sqr.
Definition undo_s_double_round (s : list N) : list N :=
  match s with
  | [x0; x1; x2; x3; x4; x5; x6; x7; x8; x9; x10; x11; x12; x13; x14; x15] =>
      let '(x0, x1, x2, x3) := undo_sqr x0 x1 x2 x3 in
      let '(x5, x6, x7, x4) := undo_sqr x5 x6 x7 x4 in
      let '(x10, x11, x8, x9) := undo_sqr x10 x11 x8 x9 in
      let '(x15, x12, x13, x14) := undo_sqr x15 x12 x13 x14 in
      let '(x0, x4, x8, x12) := undo_sqr x0 x4 x8 x12 in
      let '(x5, x9, x13, x1) := undo_sqr x5 x9 x13 x1 in
      let '(x10, x14, x2, x6) := undo_sqr x10 x14 x2 x6 in
      let '(x15, x3, x7, x11) := undo_sqr x15 x3 x7 x11 in
      [x0; x1; x2; x3; x4; x5; x6; x7; x8; x9; x10; x11; x12; x13; x14; x15]
  | _ => []
  end.
Lemma undo_s_double_round_do st : wf16 st -> undo_s_double_round (s_double_round st) = st.
Proof.
  intros [Hl Hw]. destr16 st Hl. with_strategy transparent [s_double_round] unfold s_double_round.
  rewrite sq_0, sq_1, sq_2, sq_3, sq_4, sq_5, sq_6, sq_7. unfold undo_s_double_round.
  rewrite !undo_sqr_do. reflexivity.
Qed.
Ltac undo_sstep :=
  match goal with
  | |- context [undo_sqr ?a ?b ?c ?d] =>
      let H := fresh in
      assert (H := do_sqr_undo a b c d);
      destruct (undo_sqr a b c d) as [[[? ?] ?] ?];
      destruct H as (? & ? & ? & ? & ? & ? & ? & ?); [assumption|assumption|assumption|assumption|]
  end.
Lemma do_undo_s_double_round st : wf16 st -> s_double_round (undo_s_double_round st) = st /\ wf16 (undo_s_double_round st).
Proof.
  intros [Hl Hw]. destr16 st Hl. unfold words in Hw. inv_forall. unfold W32 in *. unfold undo_s_double_round.
  do 8 undo_sstep. split.
  - with_strategy transparent [s_double_round] unfold s_double_round.
    rewrite sq_0, sq_1, sq_2, sq_3, sq_4, sq_5, sq_6, sq_7. congruence.
  - split; [reflexivity|]. unfold words, W32. repeat constructor; assumption.
Qed.

(** ** Any number of rounds *)
Lemma iter_undo (f g : list N -> list N) : (forall st, wf16 st -> wf16 (f st)) ->
  (forall st, wf16 st -> g (f st) = st) -> (forall st, wf16 st -> f (g st) = st /\ wf16 (g st)) ->
  forall n st, wf16 st ->
  wf16 (iter_n n f st) /\ wf16 (iter_n n g st) /\ iter_n n g (iter_n n f st) = st /\ iter_n n f (iter_n n g st) = st.
Proof.
  intros W GF FG. induction n as [|n IH]; intros st H; [cbn; auto|].
  destruct (IH st H) as (A & B & C & D). split; [|split; [|split]].
  - rewrite iter_n_S_out. auto.
  - rewrite iter_n_S_out. apply FG. assumption.
  - rewrite (iter_n_S_out n f). cbn [iter_n]. rewrite GF by assumption. assumption.
  - rewrite (iter_n_S_out n g). cbn [iter_n]. rewrite (proj1 (FG _ B)). assumption.
Qed.
(** Subtracting the input from the block gives the permuted state back. *)
Lemma zip_add32_nth a b i : length a = length b -> (i < length a)%nat ->
  nth i (zip_add32 a b) 0 = add32 (nth i a 0) (nth i b 0).
Proof.
  revert b i. induction a as [|x a IH]; intros [|y b] i Hl Hi; cbn in Hl, Hi; try discriminate; [lia|].
  destruct i; cbn [zip_add32 nth]; [reflexivity|]. apply IH; [congruence|lia].
Qed.
Lemma s_zip_add_nth a b i : length a = length b -> (i < length a)%nat ->
  nth i (s_zip_add a b) 0 = add32 (nth i a 0) (nth i b 0).
Proof.
  revert b i. induction a as [|x a IH]; intros [|y b] i Hl Hi; cbn in Hl, Hi; try discriminate; [lia|].
  destruct i; cbn [s_zip_add nth]; [reflexivity|]. apply IH; [congruence|lia].
Qed.
Lemma nth_word st i : words st -> nth i st 0 < M32.
Proof. intros H. apply (Forall_get W32); [exact H|reflexivity]. Qed.
Lemma recover p s : p < M32 -> s < M32 -> (add32 p s + 2 ^ 32 - s) mod 2 ^ 32 = p.
Proof. intros. change (2 ^ 32) with M32. unfold add32. lia. Qed.

(** What [new_internal] and [set_block_pos] leave of key, nonce and counter. *)
Lemma words_inj n a b : length a = (4 * n)%nat -> length b = (4 * n)%nat -> bytes a -> bytes b ->
  words_of_bytes a = words_of_bytes b -> a = b.
Proof.
  intros La Lb Ba Bb E. rewrite <- (bytes_of_words_of_bytes n a), <- (bytes_of_words_of_bytes n b) by assumption.
  rewrite E. reflexivity.
Qed.

(** ** C53 *)
(** Any number of double rounds permutes the [[u32; 16]] states. *)
Theorem C53_chacha_rounds n : exists undo, forall st, u32x16 st ->
  u32x16 (iter_n n double_round st) /\ u32x16 (undo st)
  /\ undo (iter_n n double_round st) = st /\ iter_n n double_round (undo st) = st.
Proof.
  exists (iter_n n undo_double_round). intros st H.
  apply (iter_undo double_round undo_double_round); [|exact undo_double_round_do|exact do_undo_double_round|exact H].
  intros s [Hs _]. apply double_round_wf. exact Hs.
Qed.
Theorem C53_salsa_rounds n : exists undo, forall st, u32x16 st ->
  u32x16 (iter_n n s_double_round st) /\ u32x16 (undo st)
  /\ undo (iter_n n s_double_round st) = st /\ iter_n n s_double_round (undo st) = st.
Proof.
  exists (iter_n n undo_s_double_round). intros st H.
  apply (iter_undo s_double_round undo_s_double_round);
    [exact s_double_round_wf|exact undo_s_double_round_do|exact do_undo_s_double_round|exact H].
Qed.

(** Whoever knows a block and its input only through their difference knows the input:
    two different inputs never give the same difference. *)
Lemma block_diff (f : list N -> list N) (zip : list N -> list N -> list N) :
  (forall a b i, length a = length b -> (i < length a)%nat -> nth i (zip a b) 0 = add32 (nth i a 0) (nth i b 0)) ->
  (exists undo, forall st, u32x16 st -> u32x16 (f st) /\ u32x16 (undo st) /\ undo (f st) = st /\ f (undo st) = st) ->
  forall st st', u32x16 st -> u32x16 st' ->
  (forall i, (i < 16)%nat -> (nth i (zip (f st) st) 0 + 2 ^ 32 - nth i st 0) mod 2 ^ 32
                           = (nth i (zip (f st') st') 0 + 2 ^ 32 - nth i st' 0) mod 2 ^ 32) -> st = st'.
Proof.
  intros Z (undo & U) st st' H H' E. destruct (U st H) as ([L W] & _ & R & _). destruct (U st' H') as ([L' W'] & _ & R' & _).
  rewrite <- R, <- R'. f_equal. apply (nth_ext _ _ 0 0); [congruence|]. intros i Hi. rewrite L in Hi.
  destruct H as [l w], H' as [l' w']. specialize (E i Hi).
  rewrite !Z in E by congruence.
  rewrite !recover in E by (apply nth_word; assumption). exact E.
Qed.
Theorem C53_chacha_block n st st' : u32x16 st -> u32x16 st' ->
  (forall i, (i < 16)%nat -> (nth i (run_rounds n st) 0 + 2 ^ 32 - nth i st 0) mod 2 ^ 32
                           = (nth i (run_rounds n st') 0 + 2 ^ 32 - nth i st' 0) mod 2 ^ 32) -> st = st'.
Proof. apply block_diff; [exact zip_add32_nth|apply C53_chacha_rounds]. Qed.
Theorem C53_salsa_block n st st' : u32x16 st -> u32x16 st' ->
  (forall i, (i < 16)%nat -> (nth i (s_run_rounds n st) 0 + 2 ^ 32 - nth i st 0) mod 2 ^ 32
                           = (nth i (s_run_rounds n st') 0 + 2 ^ 32 - nth i st' 0) mod 2 ^ 32) -> st = st'.
Proof. apply block_diff; [exact s_zip_add_nth|apply C53_salsa_rounds]. Qed.

(** Distinct (key, nonce, block position) give distinct block inputs. *)
Theorem C53_chacha_inputs v key iv pos key' iv' pos' st st' :
  octets 32 key -> octets 32 key' ->
  pos < 2 ^ (8 * N.of_nat (counter_size v)) -> pos' < 2 ^ (8 * N.of_nat (counter_size v)) ->
  octets (16 - counter_size v) iv -> octets (16 - counter_size v) iv' ->
  new_internal v key iv = Ok st -> new_internal v key' iv' = Ok st' ->
  set_block_pos v st pos = set_block_pos v st' pos' -> key = key' /\ iv = iv' /\ pos = pos'.
Proof.
  intros [Lk Bk] [Lk' Bk'] Hp Hp' [Li Bi] [Li' Bi'] E E' S.
  rewrite new_internal_ok in E, E' by (try assumption; destruct v; assumption).
  injection E as <-. injection E' as <-. unfold mk_state in S.
  assert (A := words_of_bytes_length 8 key Lk). assert (A' := words_of_bytes_length 8 key' Lk').
  assert (K : words_of_bytes key = words_of_bytes key' -> key = key') by (apply (words_inj 8); assumption).
  set (a := words_of_bytes key) in *. set (a' := words_of_bytes key') in *. clearbody a a'.
  destruct a as [|? [|? [|? [|? [|? [|? [|? [|? [|]]]]]]]]]; try discriminate A.
  destruct a' as [|? [|? [|? [|? [|? [|? [|? [|? [|]]]]]]]]]; try discriminate A'.
  destruct v.
  - assert (B := words_of_bytes_length 3 iv Li). assert (B' := words_of_bytes_length 3 iv' Li').
    assert (I : words_of_bytes iv = words_of_bytes iv' -> iv = iv') by (apply (words_inj 3); assumption).
    set (i := words_of_bytes iv) in *. set (i' := words_of_bytes iv') in *. clearbody i i'.
    destruct i as [|? [|? [|? [|]]]]; try discriminate B. destruct i' as [|? [|? [|? [|]]]]; try discriminate B'.
    cbn [set_block_pos upd CONSTANTS app ctr_words] in S. inversion S; subst. auto.
  - assert (B := words_of_bytes_length 2 iv Li). assert (B' := words_of_bytes_length 2 iv' Li').
    assert (I : words_of_bytes iv = words_of_bytes iv' -> iv = iv') by (apply (words_inj 2); assumption).
    set (i := words_of_bytes iv) in *. set (i' := words_of_bytes iv') in *. clearbody i i'.
    destruct i as [|? [|? [|]]]; try discriminate B. destruct i' as [|? [|? [|]]]; try discriminate B'.
    cbn [set_block_pos upd CONSTANTS app ctr_words] in S. inversion S; subst.
    split; [auto|split; [auto|]].
    change (2 ^ (8 * N.of_nat (counter_size Legacy))) with M64 in Hp, Hp'.
    unfold as_u32 in *. change 0xffffffff with (N.ones 32) in *.
    rewrite !N.land_ones in *. rewrite !N.shiftr_div_pow2 in *. change (2 ^ 32) with M32 in *. lia.
Qed.
Theorem C53_salsa_inputs key iv pos key' iv' pos' :
  octets 32 key -> octets 32 key' -> octets 8 iv -> octets 8 iv' -> pos < 2 ^ 64 -> pos' < 2 ^ 64 ->
  salsa_set_pos (salsa_new key iv) pos = salsa_set_pos (salsa_new key' iv') pos' ->
  key = key' /\ iv = iv' /\ pos = pos'.
Proof.
  intros [Lk Bk] [Lk' Bk'] [Li Bi] [Li' Bi'] Hp Hp'. change (2 ^ 64) with M64 in *.
  rewrite !s_set_pos by assumption. rewrite !salsa_new_eq by assumption. unfold s_state, s_matrix.
  destruct (half_key key Lk) as [A1 A2]. destruct (half_key key' Lk') as [A1' A2'].
  assert (K : words_of_bytes (firstn 16 key) = words_of_bytes (firstn 16 key') ->
              words_of_bytes (skipn 16 key) = words_of_bytes (skipn 16 key') -> key = key').
  { intros E1 E2. rewrite <- (firstn_skipn 16 key), <- (firstn_skipn 16 key').
    f_equal; [apply (words_inj 4)|apply (words_inj 4)];
      try assumption; try (apply bytes_firstn; assumption); try (apply bytes_skipn; assumption);
      rewrite ?firstn_length, ?skipn_length, ?Lk, ?Lk'; reflexivity. }
  assert (I : words_of_bytes iv = words_of_bytes iv' -> iv = iv') by (apply (words_inj 2); assumption).
  assert (B := words_of_bytes_length 2 iv Li). assert (B' := words_of_bytes_length 2 iv' Li').
  set (a := words_of_bytes (firstn 16 key)) in *. set (b := words_of_bytes (skipn 16 key)) in *.
  set (a' := words_of_bytes (firstn 16 key')) in *. set (b' := words_of_bytes (skipn 16 key')) in *.
  set (i := words_of_bytes iv) in *. set (i' := words_of_bytes iv') in *. clearbody a b a' b' i i'.
  len4 a A1. len4 a' A1'. len4 b A2. len4 b' A2'. len2 i B. len2 i' B'.
  cbn [upd app]. intros S. inversion S; subst.
  split; [auto|split; [auto|]]. lia.
Qed.

(** The hypotheses can be met, and two keys do give two states. *)
Example C53_satisfiable :
  exists st st', new_internal Ietf ex_key ex_nonce12 = Ok st
  /\ new_internal Ietf (rev ex_key) ex_nonce12 = Ok st'
  /\ u32x16 st /\ u32x16 st' /\ octets 32 ex_key /\ octets 12 ex_nonce12
  /\ set_block_pos Ietf st 5 <> set_block_pos Ietf st' 5
  /\ set_block_pos Ietf st 5 <> set_block_pos Ietf st 6.
Proof. do 2 eexists. split; [vm_compute; reflexivity|]. split; [vm_compute; reflexivity|]. checks. Qed.

Print Assumptions C53_chacha_rounds.
Print Assumptions C53_salsa_rounds.
Print Assumptions C53_chacha_block.
Print Assumptions C53_salsa_block.
Print Assumptions C53_chacha_inputs.
Print Assumptions C53_salsa_inputs.
