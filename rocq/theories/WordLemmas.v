(** Lemmas about [Word]. *)
From Verif Require Import Word.
From Coq Require Import ZArith Lia ZifyBool ZifyNat ZifyN.
Ltac Zify.zify_post_hook ::= Z.div_mod_to_equations.

Arguments N.modulo : simpl never.
Arguments N.div : simpl never.
Arguments N.add : simpl never.
Arguments N.sub : simpl never.
Arguments N.mul : simpl never.
Arguments N.pow : simpl never.
Arguments N.lxor : simpl never.
Arguments N.lor : simpl never.
Arguments N.land : simpl never.
Arguments N.shiftl : simpl never.
Arguments N.shiftr : simpl never.

Lemma M32_pow : M32 = 2 ^ 32. Proof. reflexivity. Qed.
Lemma M64_pow : M64 = 2 ^ 64. Proof. reflexivity. Qed.

Lemma pow2_nz k : 2 ^ k <> 0.
Proof. apply N.pow_nonzero; discriminate. Qed.

(** *** bits *)
Lemma lt_pow2_bits x n : x < 2 ^ n -> forall i, n <= i -> N.testbit x i = false.
Proof.
  intros H i Hi. destruct (N.eq_dec x 0) as [->|Hx]; [apply N.bits_0|].
  apply N.bits_above_log2. apply N.log2_lt_pow2 in H; lia.
Qed.

Lemma bits_lt_pow2 x n : (forall i, n <= i -> N.testbit x i = false) -> x < 2 ^ n.
Proof.
  intros H. destruct (N.eq_dec x 0) as [->|Hx]; [pose proof (pow2_nz n); lia|].
  apply N.log2_lt_pow2; [lia|].
  destruct (N.lt_ge_cases (N.log2 x) n) as [|Hge]; [assumption|].
  pose proof (N.bit_log2 x Hx) as Hb. rewrite (H _ Hge) in Hb. discriminate.
Qed.

Lemma lxor_lt_pow2 a b n : a < 2 ^ n -> b < 2 ^ n -> N.lxor a b < 2 ^ n.
Proof.
  intros Ha Hb. apply bits_lt_pow2. intros i Hi. rewrite N.lxor_spec.
  rewrite (lt_pow2_bits a n Ha i Hi), (lt_pow2_bits b n Hb i Hi). reflexivity.
Qed.

Lemma lor_lt_pow2 a b n : a < 2 ^ n -> b < 2 ^ n -> N.lor a b < 2 ^ n.
Proof.
  intros Ha Hb. apply bits_lt_pow2. intros i Hi. rewrite N.lor_spec.
  rewrite (lt_pow2_bits a n Ha i Hi), (lt_pow2_bits b n Hb i Hi). reflexivity.
Qed.

Lemma land_lt_pow2 a b n : a < 2 ^ n -> N.land a b < 2 ^ n.
Proof.
  intros Ha. apply bits_lt_pow2. intros i Hi. rewrite N.land_spec.
  rewrite (lt_pow2_bits a n Ha i Hi). reflexivity.
Qed.

Lemma lxor_mod_pow2 a b n : N.lxor a b mod 2 ^ n = N.lxor (a mod 2 ^ n) (b mod 2 ^ n).
Proof.
  apply N.bits_inj. intros i. rewrite N.lxor_spec.
  destruct (N.lt_ge_cases i n) as [Hi|Hi].
  - rewrite !N.mod_pow2_bits_low by assumption. apply N.lxor_spec.
  - rewrite !N.mod_pow2_bits_high by assumption. reflexivity.
Qed.

Lemma land_disjoint_mul a b n : b < 2 ^ n -> N.land (a * 2 ^ n) b = 0.
Proof.
  intros Hb. apply N.bits_inj_0. intros i. rewrite N.land_spec.
  destruct (N.lt_ge_cases i n) as [Hi|Hi].
  - rewrite N.mul_pow2_bits_low by assumption. reflexivity.
  - rewrite (lt_pow2_bits b n Hb i Hi). apply andb_false_r.
Qed.

(** Disjoint [or] is addition. *)
Lemma lor_disjoint_add a b n : b < 2 ^ n -> N.lor (a * 2 ^ n) b = a * 2 ^ n + b.
Proof.
  intros Hb. pose proof (land_disjoint_mul a b n Hb) as Hd.
  rewrite <- (N.lxor_lor _ _ Hd), <- (N.add_nocarry_lxor _ _ Hd). reflexivity.
Qed.

Lemma lxor_disjoint_add a b n : b < 2 ^ n -> N.lxor (a * 2 ^ n) b = a * 2 ^ n + b.
Proof.
  intros Hb. pose proof (land_disjoint_mul a b n Hb) as Hd.
  rewrite <- (N.add_nocarry_lxor _ _ Hd). reflexivity.
Qed.

Lemma lor_shift_add hi lo n : lo < 2 ^ n -> N.lor (N.shiftl hi n) lo = hi * 2 ^ n + lo.
Proof. intros H. rewrite N.shiftl_mul_pow2. apply lor_disjoint_add; assumption. Qed.

(** [x * 2^r mod 2^w] for [r <= w]. *)
Lemma mul_pow2_mod x r w : r <= w -> (x * 2 ^ r) mod 2 ^ w = (x mod 2 ^ (w - r)) * 2 ^ r.
Proof.
  intros H. replace (2 ^ w) with (2 ^ (w - r) * 2 ^ r).
  - rewrite N.mul_mod_distr_r; [reflexivity | apply pow2_nz | apply pow2_nz].
  - rewrite <- N.pow_add_r. f_equal. lia.
Qed.

Lemma div_pow2_lt x r w : r <= w -> x < 2 ^ w -> x / 2 ^ (w - r) < 2 ^ r.
Proof.
  intros Hr Hx. apply N.div_lt_upper_bound; [apply pow2_nz|].
  rewrite <- N.pow_add_r. replace (w - r + r) with w by lia. assumption.
Qed.

(** *** word operations *)
Lemma add32_lt a b : add32 a b < M32.
Proof. unfold add32. apply N.mod_lt. discriminate. Qed.
Lemma sub32_lt a b : sub32 a b < M32.
Proof. unfold sub32. apply N.mod_lt. discriminate. Qed.
Lemma add64_lt a b : add64 a b < M64.
Proof. unfold add64. apply N.mod_lt. discriminate. Qed.
Lemma xor32_lt a b : a < M32 -> b < M32 -> xor32 a b < M32.
Proof. rewrite M32_pow. apply lxor_lt_pow2. Qed.
Lemma rotl32_arith x r : r <= 32 ->
  rotl32 x r = (x * 2 ^ r) mod 2 ^ 32 + (x mod 2 ^ 32) / 2 ^ (32 - r).
Proof.
  intros Hr. unfold rotl32. rewrite N.shiftl_mul_pow2, N.shiftr_div_pow2, M32_pow.
  rewrite mul_pow2_mod by assumption.
  rewrite lor_disjoint_add; [reflexivity|].
  apply div_pow2_lt; [assumption|]. apply N.mod_lt, pow2_nz.
Qed.
Lemma rotl32_lt x r : r <= 32 -> rotl32 x r < M32.
Proof.
  intros Hr. unfold rotl32. rewrite M32_pow. apply lor_lt_pow2.
  - apply N.mod_lt, pow2_nz.
  - rewrite N.shiftr_div_pow2. apply N.le_lt_trans with (x mod 2 ^ 32).
    + apply N.div_le_upper_bound; [apply pow2_nz|].
      pose proof (pow2_nz (32 - r)). nia.
    + apply N.mod_lt, pow2_nz.
Qed.

Lemma sub32_add32 a b : a < M32 -> sub32 (add32 a b) b = a.
Proof. unfold sub32, add32. intros. lia. Qed.
Lemma add32_comm a b : add32 a b = add32 b a.
Proof. unfold add32. f_equal. lia. Qed.
Lemma add32_assoc a b c : add32 (add32 a b) c = add32 a (add32 b c).
Proof. unfold add32. lia. Qed.
Lemma add32_0_r a : a < M32 -> add32 a 0 = a.
Proof. unfold add32. intros. lia. Qed.

Ltac inv_forall := repeat match goal with H : Forall _ (_ :: _) |- _ => inversion H; subst; clear H end.

(** *** lists *)
Lemma upd_length {A} (l : list A) i v : length (upd l i v) = length l.
Proof. revert i; induction l as [|h t IH]; intros [|i]; cbn; auto. Qed.
Lemma get_upd_eq l i v : (i < length l)%nat -> get (upd l i v) i = v.
Proof.
  unfold get. revert i; induction l as [|h t IH]; intros [|i]; cbn; intros; try lia; auto.
  apply IH; lia.
Qed.
Lemma get_upd_neq l i j v : i <> j -> get (upd l i v) j = get l j.
Proof.
  unfold get. revert i j; induction l as [|h t IH]; intros [|i] [|j]; cbn; intros; try congruence; auto.
Qed.
Lemma Forall_upd {A} (P : A -> Prop) l i v : Forall P l -> P v -> Forall P (upd l i v).
Proof.
  intros Hl Hv. revert i; induction Hl as [|h t Hh Ht IH]; intros [|i]; cbn; auto.
Qed.
Lemma Forall_get (P : N -> Prop) l i : Forall P l -> P 0 -> P (get l i).
Proof.
  unfold get. intros Hl H0. revert i; induction Hl; intros [|i]; cbn; auto.
Qed.
Lemma upd_same l i : (i < length l)%nat -> upd l i (get l i) = l.
Proof.
  unfold get. revert i; induction l as [|h t IH]; intros [|i]; cbn; intros; try lia; auto.
  f_equal. apply IH. lia.
Qed.

Lemma iter_n_S_out {A} n (f : A -> A) x : iter_n (S n) f x = f (iter_n n f x).
Proof. revert x; induction n as [|n IH]; intros x; [reflexivity|]. cbn [iter_n] in *. apply IH. Qed.
Lemma iter_n_add {A} n m (f : A -> A) x : iter_n (n + m) f x = iter_n m f (iter_n n f x).
Proof. revert x; induction n as [|n IH]; intros x; [reflexivity|]. cbn [iter_n Nat.add]. apply IH. Qed.
Lemma iter_n_inv {A} (P : A -> Prop) n f x : P x -> (forall y, P y -> P (f y)) -> P (iter_n n f x).
Proof. intros Hx Hf. revert x Hx; induction n as [|n IH]; intros x Hx; cbn; auto. Qed.

(** *** bytes *)
Lemma to_le_length n x : length (to_le n x) = n.
Proof. revert x; induction n as [|n IH]; intros x; cbn; auto. Qed.
Lemma to_le_bytes n x : bytes (to_le n x).
Proof.
  revert x; induction n as [|n IH]; intros x; cbn [to_le]; constructor; [|apply IH].
  apply N.mod_lt. discriminate.
Qed.
Lemma from_le_lt l : bytes l -> from_le l < 256 ^ N.of_nat (length l).
Proof.
  induction l as [|b t IH]; intros H; cbn [from_le length]; [reflexivity|].
  inversion H as [|? ? Hb Ht]; subst. specialize (IH Ht).
  rewrite Nat2N.inj_succ, N.pow_succ_r'. unfold W8 in Hb. nia.
Qed.
Lemma from_to_le n x : from_le (to_le n x) = x mod 256 ^ N.of_nat n.
Proof.
  revert x; induction n as [|n IH]; intros x; cbn [to_le from_le].
  - cbn. rewrite N.mod_1_r. reflexivity.
  - rewrite IH, Nat2N.inj_succ, N.pow_succ_r'.
    rewrite N.mod_mul_r; [reflexivity | discriminate | apply N.pow_nonzero; discriminate].
Qed.
Lemma to_from_le l : bytes l -> to_le (length l) (from_le l) = l.
Proof.
  induction l as [|b t IH]; intros H; cbn [from_le length to_le]; [reflexivity|].
  inversion H as [|? ? Hb Ht]; subst. unfold W8 in Hb. f_equal.
  - lia.
  - replace ((b + 256 * from_le t) / 256) with (from_le t) by lia. auto.
Qed.
Lemma from_to_le4 x : x < M32 -> from_le (to_le 4 x) = x.
Proof. intros H. rewrite from_to_le. apply N.mod_small. exact H. Qed.
Lemma to_le_inj n x y : x < 256 ^ N.of_nat n -> y < 256 ^ N.of_nat n -> to_le n x = to_le n y -> x = y.
Proof.
  intros Hx Hy H. apply (f_equal from_le) in H. rewrite !from_to_le in H.
  rewrite !N.mod_small in H by assumption. assumption.
Qed.
Lemma to_le_mod n x : to_le n (x mod 256 ^ N.of_nat n) = to_le n x.
Proof.
  pose proof (to_from_le (to_le n x) (to_le_bytes n x)) as H.
  rewrite to_le_length, from_to_le in H. assumption.
Qed.

Lemma bytes_of_words_length l : length (bytes_of_words l) = (4 * length l)%nat.
Proof.
  unfold bytes_of_words. induction l as [|w t IH]; [reflexivity|].
  cbn [flat_map length]. rewrite app_length, IH, to_le_length. lia.
Qed.
Lemma bytes_of_words_bytes l : bytes (bytes_of_words l).
Proof.
  unfold bytes_of_words. induction l as [|w t IH]; cbn [flat_map]; [constructor|].
  apply Forall_app; split; [apply to_le_bytes | exact IH].
Qed.
Lemma bytes_of_words_app a b : bytes_of_words (a ++ b) = bytes_of_words a ++ bytes_of_words b.
Proof. unfold bytes_of_words. apply flat_map_app. Qed.
Lemma words_of_bytes_of_words l : words l -> words_of_bytes (bytes_of_words l) = l.
Proof.
  induction l as [|w t IH]; intros H; [reflexivity|].
  inversion H as [|? ? Hw Ht]; subst. specialize (IH Ht).
  change (bytes_of_words (w :: t)) with (to_le 4 w ++ bytes_of_words t).
  cbn [to_le app words_of_bytes]. rewrite IH. f_equal. apply (from_to_le4 w Hw).
Qed.
Lemma words_of_bytes_words : forall n l, (length l < 4 * n)%nat -> bytes l -> words (words_of_bytes l).
Proof.
  induction n as [|n IH]; intros l Hl Hb; [lia|].
  destruct l as [|a [|b [|c [|d t]]]]; cbn [words_of_bytes]; try constructor.
  - inversion Hb as [|? ? Ha Hb1]; subst. inversion Hb1 as [|? ? Hb2 Hb3]; subst.
    inversion Hb3 as [|? ? Hc Hb4]; subst. inversion Hb4 as [|? ? Hd Hb5]; subst.
    unfold W8 in *. unfold W32. cbn [from_le]. lia.
  - apply IH; [cbn in Hl; lia|]. unfold bytes in Hb. inv_forall. assumption.
Qed.
Lemma words_of_bytes_wf l : bytes l -> words (words_of_bytes l).
Proof. apply (words_of_bytes_words (S (length l))). lia. Qed.
Lemma words_of_bytes_length : forall n l, length l = (4 * n)%nat -> length (words_of_bytes l) = n.
Proof.
  induction n as [|n IH]; intros l Hl.
  - destruct l; [reflexivity|discriminate].
  - destruct l as [|a [|b [|c [|d t]]]]; cbn in Hl; try lia.
    cbn [words_of_bytes length]. f_equal. apply IH. lia.
Qed.
Lemma bytes_of_words_of_bytes : forall n l, length l = (4 * n)%nat -> bytes l -> bytes_of_words (words_of_bytes l) = l.
Proof.
  induction n as [|n IH]; intros l Hl Hb.
  - destruct l; [reflexivity|discriminate].
  - destruct l as [|a [|b [|c [|d t]]]]; cbn in Hl; try lia.
    cbn [words_of_bytes]. unfold bytes_of_words. cbn [flat_map].
    change (flat_map (to_le 4) (words_of_bytes t)) with (bytes_of_words (words_of_bytes t)).
    rewrite IH; [| lia |].
    + change 4%nat with (length [a; b; c; d]). unfold bytes in Hb. inv_forall.
      rewrite to_from_le; [reflexivity | repeat constructor; assumption].
    + unfold bytes in Hb. inv_forall. assumption.
Qed.
Lemma words_of_bytes_app : forall n a b, length a = (4 * n)%nat ->
  words_of_bytes (a ++ b) = words_of_bytes a ++ words_of_bytes b.
Proof.
  induction n as [|n IH]; intros l b Hl.
  - destruct l; [reflexivity|discriminate].
  - destruct l as [|w [|x [|y [|z t]]]]; cbn in Hl; try lia.
    cbn [words_of_bytes app]. f_equal. apply IH. lia.
Qed.

Lemma get_word_of_bytes : forall i l, (4 * i + 4 <= length l)%nat ->
  get (words_of_bytes l) i = from_le (slice l (4 * i) 4).
Proof.
  unfold get, slice. induction i as [|i IH]; intros l Hl.
  - destruct l as [|a [|b [|c [|d t]]]]; cbn in Hl; try lia. reflexivity.
  - destruct l as [|a [|b [|c [|d t]]]]; cbn in Hl; try lia.
    cbn [words_of_bytes nth]. rewrite IH by lia.
    replace (4 * S i)%nat with (S (S (S (S (4 * i))))) by lia. reflexivity.
Qed.

(** *** XOR of byte strings *)
Lemma xorb_length a b : length (xorb_list a b) = Nat.min (length a) (length b).
Proof. revert b; induction a as [|x a IH]; intros [|y b]; cbn [xorb_list length Nat.min]; auto. Qed.
Lemma xorb_involutive a k : (length a <= length k)%nat -> xorb_list (xorb_list a k) k = a.
Proof.
  revert k; induction a as [|x a IH]; intros [|y k]; cbn [xorb_list length]; intros H; try lia; auto.
  f_equal; [|apply IH; lia]. rewrite N.lxor_assoc, N.lxor_nilpotent, N.lxor_0_r. reflexivity.
Qed.
Lemma xorb_app a1 a2 k1 k2 : length a1 = length k1 ->
  xorb_list (a1 ++ a2) (k1 ++ k2) = xorb_list a1 k1 ++ xorb_list a2 k2.
Proof.
  revert k1; induction a1 as [|x a1 IH]; intros [|y k1] H; cbn in H; try discriminate; [reflexivity|].
  cbn [xorb_list app]. f_equal. apply IH. congruence.
Qed.
Lemma xorb_zeros k : xorb_list (repeat 0 (length k)) k = k.
Proof. induction k as [|y k IH]; cbn [length repeat xorb_list]; [reflexivity|]. rewrite N.lxor_0_l, IH; reflexivity. Qed.
Lemma xorb_comm a b : xorb_list a b = xorb_list b a.
Proof. revert b; induction a as [|x a IH]; intros [|y b]; cbn [xorb_list]; auto. rewrite N.lxor_comm, IH. reflexivity. Qed.
Lemma xorb_bytes a b : bytes a -> bytes b -> bytes (xorb_list a b).
Proof.
  intros Ha. revert b; induction Ha as [|x a Hx Ha IH]; intros b Hb; [constructor|].
  destruct Hb as [|y b Hy Hb]; [constructor|]. cbn [xorb_list]. constructor; [|apply IH; assumption].
  unfold W8 in *. change 256 with (2 ^ 8) in *. apply lxor_lt_pow2; assumption.
Qed.
