(** C61: under one Rabbit key, different IVs never share an internal state at the same
    block, unless the key makes the two halves of the key-setup counters equal. *)
From Coq Require Import String.
From Verif Require Import Word WordLemmas Res Hex PropCommon SpecRabbit Rabbit RabbitProofs.
From Coq Require Import ZArith Lia ZifyBool ZifyNat ZifyN.
Ltac Zify.zify_post_hook ::= Z.div_mod_to_equations.
Local Open Scope string_scope.
Local Open Scope N_scope.
Local Open Scope list_scope.

Lemma ctr_int_inj : forall a b, words a -> words b -> length a = length b -> ctr_int a = ctr_int b -> a = b.
Proof.
  unfold words, W32. induction a as [|x a IH]; intros [|y b] Ha Hb E H; try discriminate E; [reflexivity|].
  inversion Ha as [|? ? Hx Ha']; inversion Hb as [|? ? Hy Hb']; subst. cbn [ctr_int fold_right] in H.
  fold (ctr_int a) in H. fold (ctr_int b) in H. change (2 ^ 32) with M32 in H.
  set (p := ctr_int a) in *. set (q := ctr_int b) in *.
  assert (x = y /\ p = q) as [-> Hpq] by (clearbody p q; lia). f_equal. apply IH; try assumption. cbn in E. congruence.
Qed.
Lemma ctr_int_lt c : words c -> ctr_int c < M32 ^ N.of_nat (length c).
Proof.
  unfold words, W32. induction 1 as [|x c Hx Hc IH]; [reflexivity|]. cbn [ctr_int fold_right length]. fold (ctr_int c).
  rewrite Nat2N.inj_succ, N.pow_succ_r'. change (2 ^ 32) with M32. nia.
Qed.
Lemma ctr_int_ones n : ctr_int (repeat (M32 - 1) n) + 1 = M32 ^ N.of_nat n.
Proof.
  induction n as [|n IH]; [reflexivity|]. cbn [repeat ctr_int fold_right]. fold (ctr_int (repeat (M32 - 1) n)).
  rewrite Nat2N.inj_succ, N.pow_succ_r'. change (2 ^ 32) with M32. lia.
Qed.
Lemma iter_plus {A} (f : A -> A) n m x : Nat.iter (n + m) f x = Nat.iter n f (Nat.iter m f x).
Proof. induction n as [|n IH]; [reflexivity|]. cbn [Nat.add Nat.iter nat_rect]. f_equal. exact IH. Qed.
(** The counters before the four iterations of the IV setup. *)
Definition ivc (c : list N) (IV : N) : list N := rb_tab (fun j => N.lxor (rb_nth c j) (rb_iv_word IV j)).
Lemma ivc_words c IV : words c -> words (ivc c IV).
Proof.
  intros H. unfold words, ivc, rb_tab. apply Forall_map, Forall_forall. intros j _.
  apply xor32_lt; [apply get_word_lt; assumption|apply rb_iv_word_lt].
Qed.
Lemma ivc_word c c' IV j : (j < 8)%nat -> ivc c IV = c' -> rb_nth c j = N.lxor (nth j c' 0) (rb_iv_word IV j).
Proof.
  intros Hj <-. unfold ivc, rb_tab. rewrite (nth_indep _ 0 (N.lxor (rb_nth c 0) (rb_iv_word IV 0))) by (rewrite map_length, seq_length; assumption).
  rewrite (map_nth (fun j => N.lxor (rb_nth c j) (rb_iv_word IV j)) (seq 0 8) 0%nat j), seq_nth by assumption.
  cbn [Nat.add]. rewrite N.lxor_assoc, N.lxor_nilpotent, N.lxor_0_r. reflexivity.
Qed.
Lemma const_halves c IV k : length c = 8%nat -> ivc c IV = repeat k 8 -> firstn 4 c = skipn 4 c.
Proof.
  intros Hl E. assert (X : forall j, (j < 8)%nat -> rb_nth c j = N.lxor k (rb_iv_word IV j)).
  { intros j Hj. rewrite (ivc_word c _ IV j Hj E). f_equal. do 8 (destruct j as [|j]; [reflexivity|]). lia. }
  assert (X0 := X 0%nat). assert (X1 := X 1%nat). assert (X2 := X 2%nat). assert (X3 := X 3%nat).
  assert (X4 := X 4%nat). assert (X5 := X 5%nat). assert (X6 := X 6%nat). assert (X7 := X 7%nat). clear X E.
  do 8 (destruct c as [|? c]; [discriminate Hl|]). destruct c; [|discriminate Hl].
  unfold rb_nth in *. cbn [Nat.modulo Nat.divmod snd Nat.sub nth] in *. cbn [firstn skipn].
  rewrite X0, X1, X2, X3, X4, X5, X6, X7 by lia. reflexivity.
Qed.
Lemma iv_word_inj IV1 IV2 : IV1 < M64 -> IV2 < M64 -> rb_iv_word IV1 0 = rb_iv_word IV2 0 -> rb_iv_word IV1 2 = rb_iv_word IV2 2 -> IV1 = IV2.
Proof.
  intros H1 H2. unfold rb_iv_word. cbn [Nat.modulo Nat.divmod snd Nat.sub]. unfold rb_bits.
  change (2 ^ 0) with 1. change (31 + 1 - 0) with 32. change (63 + 1 - 32) with 32. change (2 ^ 32) with M32. lia.
Qed.
Lemma rb_int_inj : forall a b, Forall (fun x => x < 256) a -> Forall (fun x => x < 256) b -> length a = length b -> rb_int a = rb_int b -> a = b.
Proof.
  induction a as [|x a IH]; intros [|y b] Ha Hb E H; try discriminate E; [reflexivity|].
  inversion Ha as [|? ? Hx Ha']; inversion Hb as [|? ? Hy Hb']; subst. cbn [rb_int fold_right] in H.
  fold (rb_int a) in H. fold (rb_int b) in H. change (2 ^ 8) with 256 in H.
  set (p := rb_int a) in *. set (q := rb_int b) in *.
  assert (x = y /\ p = q) as [-> Hpq] by (clearbody p q; lia). f_equal. apply IH; try assumption. cbn in E. congruence.
Qed.
Lemma rb_int_lt a : Forall (fun x => x < 256) a -> rb_int a < 256 ^ N.of_nat (length a).
Proof.
  induction 1 as [|x c Hx Hc IH]; [reflexivity|]. cbn [rb_int fold_right length]. fold (rb_int c).
  rewrite Nat2N.inj_succ, N.pow_succ_r'. change (2 ^ 8) with 256. nia.
Qed.
Lemma iv_merge c b x IV1 IV2 k : words c -> length c = 8%nat -> IV1 < M64 -> IV2 < M64 -> IV1 <> IV2 ->
  firstn 4 c <> skipn 4 c ->
  odo (Nat.iter k rb_next {| rb_x := x; rb_c := ivc c IV1; rb_b := b |})
  <> odo (Nat.iter k rb_next {| rb_x := x; rb_c := ivc c IV2; rb_b := b |}).
Proof.
  intros Hw Hl H1 H2 Hne Hh E.
  assert (L1 : length (ivc c IV1) = 8%nat) by reflexivity. assert (L2 : length (ivc c IV2) = 8%nat) by reflexivity.
  assert (E1 := odo_iter k {| rb_x := x; rb_c := ivc c IV1; rb_b := b |} L1).
  assert (E2 := odo_iter k {| rb_x := x; rb_c := ivc c IV2; rb_b := b |} L2).
  rewrite E, E2 in E1. clear E E2. unfold odo in E1. cbn [rb_c rb_b] in E1.
  assert (W1 := ivc_words c IV1 Hw). assert (W2 := ivc_words c IV2 Hw).
  assert (B1 := ctr_int_lt _ W1). assert (B2 := ctr_int_lt _ W2). rewrite L1 in B1. rewrite L2 in B2.
  change (M32 ^ N.of_nat 8) with (P256 + 1) in B1, B2.
  set (V1 := ctr_int (ivc c IV1)) in *. set (V2 := ctr_int (ivc c IV2)) in *.
  assert (C : V1 = V2 \/ V1 = 0 \/ V2 = 0).
  { set (t := N.of_nat k * ctr_int rb_A) in *. clearbody V1 V2 t. assert (HP : P256 <> 0) by discriminate.
    assert (D1 := N.div_mod (V1 + b + t) P256 HP). assert (D2 := N.div_mod (V2 + b + t) P256 HP).
    rewrite E1 in D2. set (r := (V1 + b + t) mod P256) in *. set (q1 := (V1 + b + t) / P256) in *. set (q2 := (V2 + b + t) / P256) in *.
    clearbody r q1 q2. clear E1. 
    destruct (N.lt_trichotomy q1 q2) as [Q|[Q|Q]]; [right; left|left|right; right].
    - assert (P256 * q2 >= P256 * (q1 + 1)) by (apply N.le_ge, N.mul_le_mono_l; lia). lia.
    - subst. lia.
    - assert (P256 * q1 >= P256 * (q2 + 1)) by (apply N.le_ge, N.mul_le_mono_l; lia). lia. }
  destruct C as [C|[C|C]].
  - apply ctr_int_inj in C; [|assumption|assumption|congruence]. apply Hne. apply iv_word_inj; try assumption.
    + assert (X := ivc_word c (ivc c IV2) IV1 0 ltac:(lia) C). assert (Y := ivc_word c (ivc c IV2) IV2 0 ltac:(lia) eq_refl).
      rewrite X in Y. apply (f_equal (N.lxor (nth 0 (ivc c IV2) 0))) in Y.
      rewrite <- !N.lxor_assoc, N.lxor_nilpotent, !N.lxor_0_l in Y. exact Y.
    + assert (X := ivc_word c (ivc c IV2) IV1 2 ltac:(lia) C). assert (Y := ivc_word c (ivc c IV2) IV2 2 ltac:(lia) eq_refl).
      rewrite X in Y. apply (f_equal (N.lxor (nth 2 (ivc c IV2) 0))) in Y.
      rewrite <- !N.lxor_assoc, N.lxor_nilpotent, !N.lxor_0_l in Y. exact Y.
  - apply Hh, (const_halves c IV1 0); [assumption|]. apply ctr_int_inj; [assumption|repeat constructor|reflexivity|exact C].
  - apply Hh, (const_halves c IV2 0); [assumption|]. apply ctr_int_inj; [assumption|repeat constructor|reflexivity|exact C].
Qed.

(** Two ciphers with the same key and different IVs, after the same number [n] of blocks. *)
Theorem C61_ivs ck key iv1 iv2 n : octets 16 key -> octets 8 iv1 -> octets 8 iv2 -> iv1 <> iv2 ->
  exists sk, rabbit_key_only ck key = Ok sk /\
  (firstn 4 (r_c sk) <> skipn 4 (r_c sk) ->
   exists s1 s2 o1 o2 t1 t2, rabbit_new ck key iv1 = Ok s1 /\ rabbit_new ck key iv2 = Ok s2
   /\ rabbit_write ck n s1 = Ok (o1, t1) /\ rabbit_write ck n s2 = Ok (o2, t2)
   /\ (r_c t1, r_carry t1) <> (r_c t2, r_carry t2)).
Proof.
  intros [Hl Hb] [L1 B1] [L2 B2] Hne. destruct (setup_key_ok ck key Hl Hb) as [sk [E0 [Hwf0 _]]].
  exists sk. split; [exact E0|]. intros Hh.
  destruct (setup_iv_ok ck iv1 sk L1 B1 Hwf0) as [s1 [E1 [Hwf1 Es1]]].
  destruct (setup_iv_ok ck iv2 sk L2 B2 Hwf0) as [s2 [E2 [Hwf2 Es2]]].
  destruct (rabbit_write_ok ck n s1 Hwf1) as [t1 [F1 [_ Et1]]].
  destruct (rabbit_write_ok ck n s2 Hwf2) as [t2 [F2 [_ Et2]]].
  exists s1, s2. do 2 eexists. exists t1, t2.
  split; [unfold rabbit_new, rabbit_key_only; rewrite E0; exact E1|].
  split; [unfold rabbit_new, rabbit_key_only; rewrite E0; exact E2|].
  split; [exact F1|]. split; [exact F2|]. intros Eq. injection Eq as Ec Eb.
  destruct Hwf0 as (_ & _ & Lc & Wc & _).
  apply (iv_merge (r_c sk) (r_carry sk) (r_x sk) (rb_int iv1) (rb_int iv2) (n + 4)); try assumption.
  - pose proof (rb_int_lt iv1 B1) as X. rewrite L1 in X. exact X.
  - pose proof (rb_int_lt iv2 B2) as X. rewrite L2 in X. exact X.
  - intros E. apply Hne. apply rb_int_inj; try assumption. congruence.
  - assert (forall IV, Nat.iter (n + 4) rb_next {| rb_x := r_x sk; rb_c := ivc (r_c sk) IV; rb_b := r_carry sk |}
       = Nat.iter n rb_next (rb_iv_setup IV (to_spec sk))) as X.
    { intros IV. rewrite iter_plus. f_equal. }
    rewrite !X, <- Es1, <- Es2, <- Et1, <- Et2. unfold odo, to_spec. cbn [rb_c rb_b]. rewrite Ec, Eb. reflexivity.
Qed.
Print Assumptions C61_ivs.

(** RFC 4503's all-zero key is no exception. *)
Example C61_satisfiable : octets 16 (repeat 0 16) /\ octets 8 (repeat 0 8) /\ octets 8 (hex "C373F575C1267E59")
  /\ repeat 0 8 <> hex "C373F575C1267E59"
  /\ match rabbit_key_only true (repeat 0 16) with Ok sk => firstn 4 (r_c sk) <> skipn 4 (r_c sk) | Panic => False end.
Proof.
  split; [checks|]. split; [checks|]. split; [checks|]. split; [vm_compute; discriminate|]. vm_compute. discriminate.
Qed.
