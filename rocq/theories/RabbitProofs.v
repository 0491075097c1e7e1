(** Rabbit: the model never panics and equals RFC 4503; the counter system. *)
From Verif Require Import Word WordLemmas Res SpecRabbit Rabbit.
From Coq Require Import ZArith Lia ZifyBool ZifyNat ZifyN.
Ltac Zify.zify_post_hook ::= Z.div_mod_to_equations.

(** Well-formed states: eight words each, carry a bit. *)
Definition rwf (s : rstate) : Prop :=
  length (r_x s) = 8%nat /\ words (r_x s) /\ length (r_c s) = 8%nat /\ words (r_c s) /\ r_carry s <= 1.
Definition to_spec (s : rstate) : rb_state := {| rb_x := r_x s; rb_c := r_c s; rb_b := r_carry s |}.

Lemma WORDSIZE_eq : WORDSIZE = M32. Proof. reflexivity. Qed.
Lemma WORD_SIZE_eq : WORD_SIZE = M32. Proof. reflexivity. Qed.
Lemma R_A_words : words R_A. Proof. repeat constructor. Qed.
Lemma get_word_lt l j : words l -> get l j < M32.
Proof. intros H. apply (Forall_get W32 l j H). reflexivity. Qed.

(** ** The counter system *)
Lemma counter_step_ok ck j c b : words c -> b <= 1 ->
  counter_step ck j (c, b) = Ok (upd c j ((get c j + get R_A j + b) mod M32), (get c j + get R_A j + b) / M32).
Proof.
  intros Hc Hb. unfold counter_step. pose proof (get_word_lt c j Hc) as H1. pose proof (get_word_lt R_A j R_A_words) as H2.
  rewrite add_ck_ok by lia. cbn [bind]. rewrite add_ck_ok by lia. cbn [bind]. rewrite WORDSIZE_eq.
  set (t := get c j + get R_A j + b) in *. assert (Ht : t < 2 * M32) by (unfold t; lia). clearbody t.
  assert (E1 : as_u32 (t mod M32) = t mod M32) by (unfold as_u32; apply N.mod_mod; discriminate).
  assert (E2 : N.land (as_u8 (t / M32)) 1 = t / M32).
  { unfold as_u8. change (N.land (t / M32 mod 256) 1) with (N.land (t / M32 mod 256) (N.ones 1)).
    rewrite N.land_ones. change (2 ^ 1) with 2. lia. }
  rewrite E1, E2. reflexivity.
Qed.
Lemma counter_carry c b j : words c -> b <= 1 -> (get c j + get R_A j + b) / M32 <= 1.
Proof.
  intros Hc Hb. pose proof (get_word_lt c j Hc) as H1. pose proof (get_word_lt R_A j R_A_words) as H2. lia.
Qed.
Lemma counter_words c b j : words c -> words (upd c j ((get c j + get R_A j + b) mod M32)).
Proof. intros Hc. apply Forall_upd; [assumption|]. unfold W32. apply N.mod_lt. discriminate. Qed.

(** The carries into positions 0..8. *)
Fixpoint carry_in (c : list N) (b : N) (j : nat) : N :=
  match j with O => b | S i => (get c i + get R_A i + carry_in c b i) / M32 end.
Lemma carry_in_le c b j : words c -> b <= 1 -> carry_in c b j <= 1.
Proof. intros Hc Hb. induction j as [|j IH]; [assumption|]. apply counter_carry; assumption. Qed.

Lemma get_upd_other l i j v : i <> j -> get (upd l i v) j = get l j.
Proof. apply get_upd_neq. Qed.

(** After positions [0..j) the list is updated there, unchanged elsewhere. *)
Fixpoint counted (c : list N) (b : N) (j : nat) : list N :=
  match j with
  | O => c
  | S i => upd (counted c b i) i ((get c i + get R_A i + carry_in c b i) mod M32)
  end.
Lemma counted_words c b j : words c -> words (counted c b j).
Proof.
  intros H. induction j as [|j IH]; [assumption|]. cbn [counted]. apply Forall_upd; [assumption|].
  unfold W32. apply N.mod_lt. discriminate.
Qed.
Lemma counted_length c b j : length (counted c b j) = length c.
Proof. induction j as [|j IH]; [reflexivity|]. cbn [counted]. rewrite upd_length. assumption. Qed.
Lemma counted_get_above c b j i : (j <= i)%nat -> get (counted c b j) i = get c i.
Proof.
  induction j as [|j IH]; intros H; [reflexivity|]. cbn [counted]. rewrite get_upd_other by lia. apply IH. lia.
Qed.
Lemma counted_get_below c b j i : (i < j)%nat -> (j <= length c)%nat ->
  get (counted c b j) i = (get c i + get R_A i + carry_in c b i) mod M32.
Proof.
  induction j as [|j IH]; intros H Hl; [lia|]. cbn [counted].
  destruct (Nat.eq_dec i j) as [->|Hne].
  - apply get_upd_eq. rewrite counted_length. lia.
  - rewrite get_upd_other by lia. apply IH; lia.
Qed.

Lemma counter_loop ck c b : words c -> b <= 1 ->
  forall j, for_ (seq 0 j) (counter_step ck) (c, b) = Ok (counted c b j, carry_in c b j).
Proof.
  intros Hc Hb. induction j as [|j IH]; [reflexivity|].
  rewrite seq_S, for_app, IH. cbn [bind for_ Nat.add]. 
  rewrite counter_step_ok by (try apply counted_words; try apply carry_in_le; assumption).
  cbn [bind]. rewrite (counted_get_above c b j j) by lia. reflexivity.
Qed.

Lemma carry_in_spec c b j : (j <= 8)%nat -> carry_in c b j = rb_carry c b j.
Proof.
  induction j as [|j IH]; intros H; [reflexivity|]. cbn [carry_in rb_carry]. rewrite IH by lia.
  unfold rb_nth. rewrite !Nat.mod_small by lia. reflexivity.
Qed.
Lemma list8 l : length l = 8%nat -> l = map (get l) (seq 0 8).
Proof. intros H. do 8 (destruct l as [|? l]; [discriminate H|]). destruct l; [reflexivity|discriminate H]. Qed.
Lemma counted_spec c b : length c = 8%nat -> counted c b 8 = rb_tab (rb_counter c b).
Proof.
  intros Hl. rewrite (list8 (counted c b 8)) by (rewrite counted_length; assumption).
  unfold rb_tab. apply map_ext_in. intros j Hj. apply in_seq in Hj.
  rewrite counted_get_below by lia. unfold rb_counter. rewrite <- carry_in_spec by lia.
  unfold rb_nth. rewrite !Nat.mod_small by lia. reflexivity.
Qed.

Lemma counter_update_ok ck s : rwf s ->
  counter_update ck s = Ok {| r_x := r_x s; r_c := counted (r_c s) (r_carry s) 8; r_carry := carry_in (r_c s) (r_carry s) 8 |}.
Proof.
  intros (_ & _ & _ & Hc & Hb). unfold counter_update.
  rewrite (counter_loop ck _ _ Hc Hb 8). reflexivity.
Qed.

(** ** Next state *)
Lemma lxor_mod a b n : N.lxor a b mod 2 ^ n = N.lxor (a mod 2 ^ n) (b mod 2 ^ n).
Proof.
  apply N.bits_inj. intros k. rewrite N.lxor_spec. destruct (N.lt_ge_cases k n) as [H|H].
  - rewrite !N.mod_pow2_bits_low by assumption. apply N.lxor_spec.
  - rewrite !N.mod_pow2_bits_high by assumption. reflexivity.
Qed.
Lemma g_val sq : sq < M64 -> as_u32 (N.lxor sq (N.shiftr sq 32)) = N.lxor (sq mod M32) (sq / M32).
Proof.
  intros H. unfold as_u32. rewrite M32_pow, lxor_mod, N.shiftr_div_pow2, <- M32_pow.
  f_equal. apply N.mod_small. lia.
Qed.
Definition g_of (s : rstate) (j : nat) : N := rb_g (get (r_x s) j) (get (r_c s) j).
Lemma g_of_lt s j : g_of s j < M32.
Proof.
  unfold g_of, rb_g. rewrite WORD_SIZE_eq. set (u := (_ + _) mod M32).
  assert (u < M32) by (apply N.mod_lt; discriminate). clearbody u. cbv zeta.
  apply xor32_lt; [apply N.mod_lt; discriminate | nia].
Qed.
Lemma g_step_ok ck s j g : words (r_x s) -> words (r_c s) -> g_step ck s j g = Ok (upd g j (g_of s j)).
Proof.
  intros Hx Hc. unfold g_step. pose proof (get_word_lt _ j Hx) as H1. pose proof (get_word_lt _ j Hc) as H2.
  rewrite add_ck_ok by lia. cbn [bind]. rewrite WORDSIZE_eq.
  assert (U : (get (r_x s) j + get (r_c s) j) mod M32 < M32) by (apply N.mod_lt; discriminate).
  unfold g_of, rb_g. rewrite WORD_SIZE_eq.
  set (u := (_ + _) mod M32) in *. clearbody u.
  rewrite mul_ck_ok by nia. cbn [bind]. rewrite g_val by nia. reflexivity.
Qed.
Lemma g_loop ck s : words (r_x s) -> words (r_c s) ->
  for_ (seq 0 8) (g_step ck s) (repeat 0 8) = Ok (map (g_of s) (seq 0 8)).
Proof.
  intros Hx Hc. cbn [seq for_]. do 8 (rewrite g_step_ok by assumption; cbn [bind]). reflexivity.
Qed.
Lemma rot_spec x r : x < M32 -> r <= 32 -> rotl32 x r = rb_rot x r.
Proof.
  intros Hx Hr. rewrite rotl32_arith by assumption. unfold rb_rot.
  rewrite (N.mod_small x) by (rewrite <- M32_pow; assumption). reflexivity.
Qed.
Lemma add3_spec a b c : add32 (add32 a b) c = (a + b + c) mod WORD_SIZE.
Proof. unfold add32. rewrite WORD_SIZE_eq. apply N.add_mod_idemp_l. discriminate. Qed.

Lemma next_state_ok ck s : rwf s -> exists s', next_state ck s = Ok s' /\ rwf s' /\ to_spec s' = rb_next (to_spec s).
Proof.
  intros Hwf. pose proof Hwf as (Hlx & Hx & Hlc & Hc & Hb). unfold next_state. cbv zeta.
  rewrite counter_update_ok by assumption. cbn [bind].
  set (s1 := {| r_x := _; r_c := _; r_carry := _ |}).
  assert (Hc1 : words (r_c s1)) by (apply counted_words; assumption).
  rewrite g_loop by assumption. cbn [bind]. cbn [map seq]. unfold get at 1 2 3 4 5 6 7 8 9 10 11 12 13 14 15 16 17 18 19 20 21 22 23 24.
  cbn [nth]. eexists. split; [reflexivity|].
  assert (Hl8 : r_x s1 = r_x s) by reflexivity.
  pose proof (g_of_lt s1) as Hg.
  split.
  - unfold rwf. cbn [r_x r_c r_carry]. rewrite !upd_length. split; [assumption|]. split.
    { repeat apply Forall_upd; try assumption; apply add32_lt. }
    split; [unfold s1; cbn [r_c]; rewrite counted_length; assumption|]. split; [assumption|].
    apply carry_in_le; assumption.
  - unfold rb_next, to_spec. cbn [r_x r_c r_carry rb_x rb_c rb_b]. cbv zeta.
    unfold s1 at 25. unfold s1 at 25. cbn [r_c r_carry].
    rewrite <- counted_spec by assumption. rewrite <- carry_in_spec by lia. f_equal.
    assert (EG : rb_tab (fun j => rb_g (rb_nth (r_x s) j) (rb_nth (counted (r_c s) (r_carry s) 8) j)) = map (g_of s1) (seq 0 8)).
    { unfold rb_tab. apply map_ext_in. intros j Hj. apply in_seq in Hj. unfold rb_nth. rewrite !Nat.mod_small by lia. reflexivity. }
    rewrite EG. rewrite Hl8. clear EG Hl8. remember (r_x s) as x eqn:Ex. clear Ex.
    do 8 (destruct x as [|? x]; [discriminate Hlx|]). destruct x; [|discriminate Hlx].
    unfold rb_tab, rb_next_x, rb_nth. cbn [seq map Nat.even Nat.add Nat.sub upd].
    change (1 mod 8)%nat with 1%nat. change (0 mod 8)%nat with 0%nat. change (2 mod 8)%nat with 2%nat.
    change (3 mod 8)%nat with 3%nat. change (4 mod 8)%nat with 4%nat. change (5 mod 8)%nat with 5%nat.
    change (6 mod 8)%nat with 6%nat. change (7 mod 8)%nat with 7%nat. change (8 mod 8)%nat with 0%nat.
    change (9 mod 8)%nat with 1%nat. change (10 mod 8)%nat with 2%nat. change (11 mod 8)%nat with 3%nat.
    change (12 mod 8)%nat with 4%nat. change (13 mod 8)%nat with 5%nat. change (14 mod 8)%nat with 6%nat.
    cbn [nth]. rewrite !add3_spec, !rot_spec by (try apply Hg; lia). reflexivity.
Qed.
Lemma iter_shift {A} (f : A -> A) i x : Nat.iter i f (f x) = f (Nat.iter i f x).
Proof. induction i as [|i IH]; [reflexivity|]. cbn. f_equal. exact IH. Qed.
Lemma iter_S_r {A} (f : A -> A) i x : Nat.iter (S i) f x = Nat.iter i f (f x).
Proof. rewrite iter_shift. reflexivity. Qed.
Lemma for_const_ok ck m : forall l s, length l = m -> rwf s ->
  exists s', for_ l (fun _ : nat => next_state ck) s = Ok s' /\ rwf s' /\ to_spec s' = Nat.iter m rb_next (to_spec s).
Proof.
  induction m as [|m IH]; intros l s Hl Hwf; (destruct l as [|j l]; [|try discriminate Hl]).
  - exists s. repeat match goal with |- _ /\ _ => split end; auto.
  - discriminate Hl.
  - cbn [for_]. destruct (next_state_ok ck s Hwf) as [s1 [E [Hwf1 Es]]]. rewrite E. cbn [bind].
    destruct (IH l s1 ltac:(cbn in Hl; lia) Hwf1) as [s2 [E2 [Hwf2 Es2]]].
    exists s2. split; [assumption|]. split; [assumption|]. rewrite Es2, Es.
    symmetry. apply iter_S_r.
Qed.
Lemma next_state4_ok ck s : rwf s ->
  exists s', next_state4 ck s = Ok s' /\ rwf s' /\ to_spec s' = Nat.iter 4 rb_next (to_spec s).
Proof. intros H. apply for_const_ok; [reflexivity|assumption]. Qed.

(** ** Key setup *)
Lemma rb_int_div16 l i : bytes l -> (2 * i + 1 < length l)%nat ->
  rb_bits (rb_int l) (16 * N.of_nat i + 15) (16 * N.of_nat i) = get l (2 * i) + 256 * get l (2 * i + 1).
Proof.
  intros Hb Hl. unfold rb_bits. replace (16 * N.of_nat i + 15 + 1 - 16 * N.of_nat i) with 16 by lia.
  change (2 ^ 16) with 65536. revert l Hb Hl. induction i as [|i IH]; intros l Hb Hl.
  - destruct l as [|a [|b t]]; cbn in Hl; try lia. change (2 ^ (16 * N.of_nat 0)) with 1. rewrite N.div_1_r.
    cbn [rb_int fold_right]. fold (rb_int t). change (2 ^ 8) with 256. unfold get. cbn [Nat.mul Nat.add nth].
    unfold bytes in Hb. inv_forall. unfold W8 in *. lia.
  - destruct l as [|a [|b t]]; cbn in Hl; try lia. unfold bytes in Hb. inv_forall. unfold W8 in *.
    replace (2 ^ (16 * N.of_nat (S i))) with (65536 * 2 ^ (16 * N.of_nat i)).
    2:{ replace (16 * N.of_nat (S i)) with (16 + 16 * N.of_nat i) by lia. rewrite N.pow_add_r. reflexivity. }
    rewrite <- N.div_div by (try discriminate; apply N.pow_nonzero; discriminate).
    cbn [rb_int fold_right]. fold (rb_int t). change (2 ^ 8) with 256.
    replace ((a + 256 * (b + 256 * rb_int t)) / 65536) with (rb_int t) by lia.
    rewrite IH by (try assumption; lia).
    replace (2 * S i)%nat with (S (S (2 * i))) by lia. replace (S (S (2 * i)) + 1)%nat with (S (S (2 * i + 1))) by lia.
    reflexivity.
Qed.
Lemma subkey_eq key i : bytes key -> subkey key i = get key (2 * i) + 256 * get key (2 * i + 1).
Proof.
  intros Hb. unfold subkey, shl16, as_u16.
  assert (H1 : get key (2 * i) < 256) by (apply (Forall_get W8 key); [assumption|reflexivity]).
  assert (H2 : get key (2 * i + 1) < 256) by (apply (Forall_get W8 key); [assumption|reflexivity]).
  set (a := get key (2 * i)) in *. set (b := get key (2 * i + 1)) in *. clearbody a b.
  assert (E : N.shiftl b 8 mod 65536 = N.shiftl b 8) by (rewrite N.shiftl_mul_pow2; change (2 ^ 8) with 256; lia).
  rewrite E, N.lor_comm, lor_shift_add by (change (2 ^ 8) with 256; assumption). change (2 ^ 8) with 256. lia.
Qed.
Lemma subkey_lt key i : bytes key -> subkey key i < 65536.
Proof.
  intros Hb. rewrite subkey_eq by assumption.
  assert (H1 : get key (2 * i) < 256) by (apply (Forall_get W8 key); [assumption|reflexivity]).
  assert (H2 : get key (2 * i + 1) < 256) by (apply (Forall_get W8 key); [assumption|reflexivity]).
  lia.
Qed.
Lemma subkey_spec key i : length key = 16%nat -> bytes key -> (i < 8)%nat ->
  subkey key i = rb_bits (rb_int key) (16 * N.of_nat i + 15) (16 * N.of_nat i).
Proof. intros Hl Hb Hi. rewrite rb_int_div16, subkey_eq by (try assumption; lia). reflexivity. Qed.
Lemma join16_eq a b : a < 65536 -> b < 65536 -> join16 a b = rb_cat a b.
Proof.
  intros Ha Hb. unfold join16, shl32, as_u32, rb_cat.
  assert (E : N.shiftl a 16 mod M32 = N.shiftl a 16) by (rewrite N.shiftl_mul_pow2; change (2 ^ 16) with 65536; lia).
  rewrite E, lor_shift_add by (change (2 ^ 16) with 65536; assumption). reflexivity.
Qed.
Lemma rb_cat_lt a b : a < 65536 -> b < 65536 -> rb_cat a b < M32.
Proof. unfold rb_cat. change (2 ^ 16) with 65536. lia. Qed.

Lemma tab_get l : length l = 8%nat -> l = rb_tab (rb_nth l).
Proof. intros H. do 8 (destruct l as [|? l]; [discriminate H|]). destruct l; [reflexivity|discriminate H]. Qed.

Lemma setup_key_ok ck key : length key = 16%nat -> bytes key ->
  exists s, setup_key ck key = Ok s /\ rwf s /\ to_spec s = rb_key_setup (rb_int key).
Proof.
  intros Hl Hb. unfold setup_key. cbv zeta.
  set (p := fold_left (fun s j => setup_step (map (subkey key) (seq 0 8)) j s) (seq 0 8) (repeat 0 8, repeat 0 8)).
  set (s0 := {| r_x := fst p; r_c := snd p; r_carry := 0 |}).
  assert (Ep : p = (rb_x (to_spec s0), rb_c (to_spec s0))) by (unfold s0; cbn; destruct p; reflexivity).
  set (k i := rb_bits (rb_int key) (16 * N.of_nat (i mod 8)%nat + 15) (16 * N.of_nat (i mod 8)%nat)).
  assert (Ek : forall i, (i < 8)%nat -> subkey key i = k i).
  { intros i Hi. unfold k. rewrite Nat.mod_small by assumption. apply subkey_spec; assumption. }
  assert (E0 : to_spec s0 = {| rb_x := rb_tab (fun j => if Nat.even j then rb_cat (k (j + 1)%nat) (k j) else rb_cat (k (j + 5)%nat) (k (j + 4)%nat));
              rb_c := rb_tab (fun j => if Nat.even j then rb_cat (k (j + 4)%nat) (k (j + 5)%nat) else rb_cat (k j) (k (j + 1)%nat));
              rb_b := 0 |}).
  { unfold s0, p. cbn [seq map fold_left]. unfold setup_step. cbn [Nat.modulo Nat.divmod snd Nat.sub Nat.eqb Nat.add fst repeat upd].
    unfold get. cbn [nth]. unfold to_spec, rb_tab. cbn [r_x r_c r_carry fst snd seq map Nat.even Nat.add].
    rewrite !join16_eq by (apply subkey_lt; assumption). rewrite !Ek by lia.
    change (k 8%nat) with (k 0%nat). change (k 9%nat) with (k 1%nat). change (k 10%nat) with (k 2%nat).
    change (k 11%nat) with (k 3%nat). change (k 12%nat) with (k 4%nat). reflexivity. }
  assert (Espec : rb_key_setup (rb_int key) = let s := Nat.iter 4 rb_next (to_spec s0) in
    {| rb_x := rb_x s; rb_c := rb_tab (fun j => N.lxor (rb_nth (rb_c s) j) (rb_nth (rb_x s) (j + 4)%nat)); rb_b := rb_b s |}).
  { rewrite E0. reflexivity. }
  assert (Hwf0 : rwf s0).
  { assert (Hk : forall i, k i < 65536).
    { intros i. unfold k, rb_bits. set (n := N.of_nat _). replace (16 * n + 15 + 1 - 16 * n) with 16 by lia.
      change 65536 with (2 ^ 16). apply N.mod_lt. discriminate. }
    pose proof (f_equal rb_x E0) as Ex. pose proof (f_equal rb_c E0) as Ec. cbn [to_spec rb_x rb_c] in Ex, Ec.
    unfold rwf. rewrite Ex, Ec. clear Ex Ec E0 Ep. unfold rb_tab. cbn [seq map Nat.even length r_carry s0].
    split; [reflexivity|]. split; [repeat constructor; apply rb_cat_lt; apply Hk|].
    split; [reflexivity|]. split; [repeat constructor; apply rb_cat_lt; apply Hk|]. lia. }
  destruct (next_state4_ok ck s0 Hwf0) as [s1 [E1 [Hwf1 Es1]]].
  assert (Es0 : (let (x, c) := p in next_state4 ck {| r_x := x; r_c := c; r_carry := 0 |}) = Ok s1).
  { rewrite <- E1. unfold s0. destruct p. reflexivity. }
  destruct p as [px pc]. rewrite Es0. cbn [bind].
  eexists. split; [reflexivity|].
  destruct Hwf1 as (Hlx & Hx & Hlc & Hc & Hb1). destruct s1 as [x1 c1 b1]. cbn [r_x r_c r_carry] in *.
  rewrite Espec, <- Es1. cbv zeta. unfold to_spec at 2 3 4 5. cbn [r_x r_c r_carry rb_x rb_c rb_b].
  assert (Ec : fold_left (fun c j => upd c j (xor32 (get c j) (get x1 ((j + 4) mod 8)%nat))) (seq 0 8) c1
               = rb_tab (fun j => N.lxor (rb_nth c1 j) (rb_nth x1 (j + 4)%nat))).
  { clear - Hlc Hlx. do 8 (destruct c1 as [|? c1]; [discriminate Hlc|]). destruct c1; [|discriminate Hlc]. reflexivity. }
  unfold rwf, to_spec. cbn [r_x r_c r_carry]. rewrite Ec. split; [|reflexivity].
  split; [assumption|]. split; [assumption|]. split; [reflexivity|]. split; [|assumption].
  apply Forall_forall. intros v Hv. unfold rb_tab in Hv. apply in_map_iff in Hv as [j [<- Hj]].
  apply xor32_lt; apply get_word_lt; assumption.
Qed.

(** ** IV setup *)
Lemma iv_le_eq iv o : bytes iv ->
  iv_le iv o = get iv o + 256 * get iv (o + 1) + 65536 * get iv (o + 2) + 16777216 * get iv (o + 3).
Proof.
  intros Hb. unfold iv_le, shl32, as_u32.
  assert (G : forall i, get iv i < 256) by (intros i; apply (Forall_get W8 iv); [assumption|reflexivity]).
  pose proof (G o) as G0. pose proof (G (o + 1)%nat) as G1. pose proof (G (o + 2)%nat) as G2. pose proof (G (o + 3)%nat) as G3. clear G.
  set (a := get iv o) in *. set (b := get iv (o + 1)) in *. set (c := get iv (o + 2)) in *. set (d := get iv (o + 3)) in *. clearbody a b c d.
  rewrite !N.shiftl_mul_pow2. change (2 ^ 8) with 256. change (2 ^ 16) with 65536. change (2 ^ 24) with 16777216.
  rewrite !N.mod_small by lia.
  rewrite (N.lor_comm a). change 256 with (2 ^ 8) at 1. rewrite <- N.shiftl_mul_pow2, lor_shift_add by (change (2 ^ 8) with 256; assumption).
  rewrite (N.lor_comm _ (c * 65536)). change 65536 with (2 ^ 16) at 1. rewrite <- N.shiftl_mul_pow2, lor_shift_add by (change (2 ^ 8) with 256; change (2 ^ 16) with 65536; lia).
  rewrite (N.lor_comm _ (d * 16777216)). change 16777216 with (2 ^ 24) at 1. rewrite <- N.shiftl_mul_pow2, lor_shift_add by (change (2 ^ 8) with 256; change (2 ^ 16) with 65536; change (2 ^ 24) with 16777216; lia).
  change (2 ^ 8) with 256. change (2 ^ 16) with 65536. change (2 ^ 24) with 16777216. lia.
Qed.
Lemma iv_words iv : length iv = 8%nat -> bytes iv ->
  let i0 := iv_le iv 0 in let i2 := iv_le iv 4 in
  [i0; N.lor (N.shiftr i0 16) (N.land i2 0xFFFF0000); i2; N.lor (shl32 i2 16) (N.land i0 0x0000FFFF)]
  = map (rb_iv_word (rb_int iv)) (seq 0 4).
Proof.
  intros Hl Hb i0 i2. unfold i0, i2. rewrite !iv_le_eq by assumption. clear i0 i2.
  do 8 (destruct iv as [|? iv]; [discriminate Hl|]). destruct iv; [|discriminate Hl].
  unfold bytes in Hb. inv_forall. unfold W8 in *. unfold get. cbn [Nat.add nth seq map].
  unfold rb_iv_word. cbn [Nat.modulo Nat.divmod snd Nat.sub]. unfold rb_bits, rb_cat.
  cbn [rb_int fold_right]. 
  change (2 ^ 0) with 1. change (2 ^ 8) with 256. change (2 ^ 16) with 65536. change (31 + 1 - 0) with 32.
  change (63 + 1 - 48) with 16. change (31 + 1 - 16) with 16. change (63 + 1 - 32) with 32. change (47 + 1 - 32) with 16.
  change (15 + 1 - 0) with 16. change (2 ^ 32) with M32. change (2 ^ 48) with (M32 * 65536). change (2 ^ 16) with 65536.
  set (w0 := n + 256 * n0 + 65536 * n1 + 16777216 * n2). set (w1 := n3 + 256 * n4 + 65536 * n5 + 16777216 * n6).
  assert (W0 : w0 < M32) by (unfold w0; lia). assert (W1 : w1 < M32) by (unfold w1; lia).
  replace (n + 256 * (n0 + 256 * (n1 + 256 * (n2 + 256 * (n3 + 256 * (n4 + 256 * (n5 + 256 * (n6 + 256 * 0)))))))) with (w0 + M32 * w1)
    by (unfold w0, w1; lia).
  clearbody w0 w1. clear - W0 W1.
  assert (E1 : N.land w1 0xFFFF0000 = N.shiftl (w1 / 65536) 16).
  { change 0xFFFF0000 with (N.shiftl (N.ones 16) 16). apply N.bits_inj. intros k. rewrite N.land_spec.
    destruct (N.lt_ge_cases k 16) as [H|H].
    - rewrite !N.shiftl_spec_low by assumption. apply andb_false_r.
    - rewrite !N.shiftl_spec_high' by assumption. change 65536 with (2 ^ 16). rewrite N.div_pow2_bits.
      replace (k - 16 + 16) with k by lia.
      destruct (N.lt_ge_cases (k - 16) 16) as [H'|H'].
      + rewrite N.ones_spec_low by assumption. apply andb_true_r.
      + rewrite N.ones_spec_high by assumption. rewrite andb_false_r. symmetry.
        rewrite <- (N.mod_small w1 (2 ^ 32)) by assumption. apply N.mod_pow2_bits_high. lia. }
  assert (E2 : N.land w0 0x0000FFFF = w0 mod 65536) by (change 0x0000FFFF with (N.ones 16); apply N.land_ones).
  assert (E3 : shl32 w1 16 = N.shiftl (w1 mod 65536) 16).
  { unfold shl32, as_u32. rewrite !N.shiftl_mul_pow2. change (2 ^ 16) with 65536. lia. }
  rewrite E1, E2, E3, N.shiftr_div_pow2. change (2 ^ 16) with 65536.
  rewrite (N.lor_comm (w0 / 65536)), !lor_shift_add by (change (2 ^ 16) with 65536; lia).
  change (2 ^ 16) with 65536.
  replace ((w0 + M32 * w1) / 1 mod M32) with w0 by lia.
  replace ((w0 + M32 * w1) / (M32 * 65536) mod 65536) with (w1 / 65536) by lia.
  replace ((w0 + M32 * w1) / 65536 mod 65536) with (w0 / 65536) by lia.
  replace ((w0 + M32 * w1) / M32 mod M32) with w1 by lia.
  replace ((w0 + M32 * w1) / M32 mod 65536) with (w1 mod 65536) by lia.
  replace ((w0 + M32 * w1) / 1 mod 65536) with (w0 mod 65536) by lia.
  reflexivity.
Qed.

Lemma rb_iv_word_lt IV j : rb_iv_word IV j < M32.
Proof.
  unfold rb_iv_word, rb_bits, rb_cat. destruct (j mod 4)%nat as [|[|[|]]].
  - change (31 + 1 - 0) with 32. change (2 ^ 32) with M32. apply N.mod_lt. discriminate.
  - change (63 + 1 - 48) with 16. change (31 + 1 - 16) with 16. change (2 ^ 16) with 65536. 
    set (a := _ mod 65536). set (b := (IV / 65536) mod 65536). 
    assert (a < 65536) by (apply N.mod_lt; discriminate). assert (b < 65536) by (apply N.mod_lt; discriminate). lia.
  - change (63 + 1 - 32) with 32. change (2 ^ 32) with M32. apply N.mod_lt. discriminate.
  - change (47 + 1 - 32) with 16. change (15 + 1 - 0) with 16. change (2 ^ 16) with 65536.
    set (a := _ mod 65536). set (b := (IV / 2 ^ 0) mod 65536).
    assert (a < 65536) by (apply N.mod_lt; discriminate). assert (b < 65536) by (apply N.mod_lt; discriminate). lia.
Qed.

Lemma setup_iv_ok ck iv s : length iv = 8%nat -> bytes iv -> rwf s ->
  exists s', setup_iv ck iv s = Ok s' /\ rwf s' /\ to_spec s' = rb_iv_setup (rb_int iv) (to_spec s).
Proof.
  intros Hl Hb (Hlx & Hx & Hlc & Hc & Hb1). unfold setup_iv. cbv zeta.
  pose proof (iv_words iv Hl Hb) as E. cbv zeta in E. cbn [seq map] in E.
  injection E as E0 E1 E2 E3. rewrite E1, E3, E0, E2. clear E0 E1 E2 E3.
  set (c := upd _ 7 _).
  assert (Ec : c = rb_tab (fun j => N.lxor (rb_nth (r_c s) j) (rb_iv_word (rb_int iv) j))).
  { unfold c. remember (r_c s) as cc eqn:Ecc. clear Ecc c.
    do 8 (destruct cc as [|? cc]; [discriminate Hlc|]). destruct cc; [|discriminate Hlc]. reflexivity. }
  destruct (next_state4_ok ck {| r_x := r_x s; r_c := c; r_carry := r_carry s |}) as [s' [E [Hwf Es]]].
  - unfold rwf. cbn [r_x r_c r_carry]. rewrite Ec. split; [assumption|]. split; [assumption|]. split; [reflexivity|].
    split; [|assumption]. apply Forall_forall. intros v Hv. unfold rb_tab in Hv. apply in_map_iff in Hv as [j [<- Hj]].
    apply xor32_lt; [apply get_word_lt; assumption | apply rb_iv_word_lt].
  - exists s'. split; [assumption|]. split; [assumption|]. rewrite Es. unfold to_spec at 1. cbn [r_x r_c r_carry].
    rewrite Ec. reflexivity.
Qed.

(** ** Extraction *)
Lemma rb_octets_le n : forall x, rb_octets n x = to_le n x.
Proof.
  induction n as [|n IH]; intros x; [reflexivity|]. cbn [to_le]. rewrite <- IH. unfold rb_octets.
  cbn [seq map]. f_equal.
  - change (8 * N.of_nat 0) with 0. rewrite N.pow_0_r, N.div_1_r. reflexivity.
  - rewrite <- seq_shift, map_map. apply map_ext. intros i.
    replace (8 * N.of_nat (S i)) with (8 + 8 * N.of_nat i) by lia. rewrite N.pow_add_r.
    rewrite <- N.div_div by (try discriminate; apply N.pow_nonzero; discriminate). reflexivity.
Qed.
Lemma to_le_16 n t r : t < 65536 -> to_le (S (S n)) (t + 65536 * r) = as_u8 t :: as_u8 (N.shiftr t 8) :: to_le n r.
Proof.
  intros Ht. cbn [to_le]. unfold as_u8. rewrite N.shiftr_div_pow2. change (2 ^ 8) with 256. f_equal; [|f_equal; [|f_equal]]; lia.
Qed.
Lemma u16_xor a b : as_u16 (N.lxor a b) = N.lxor (as_u16 a) (as_u16 b).
Proof. unfold as_u16. change 65536 with (2 ^ 16). apply lxor_mod. Qed.
Lemma u16_xor_lt a b : N.lxor (as_u16 a) (as_u16 b) < 65536.
Proof. change 65536 with (2 ^ 16). apply lxor_lt_pow2; apply N.mod_lt; discriminate. Qed.
Lemma extract_ok s : length (r_x s) = 8%nat -> extract s = rb_octets 16 (rb_extract (to_spec s)).
Proof.
  intros Hl. rewrite rb_octets_le. unfold extract, rb_extract. cbn [to_spec rb_x].
  remember (r_x s) as x eqn:Ex. clear Ex. do 8 (destruct x as [|? x]; [discriminate Hl|]). destruct x; [|discriminate Hl].
  cbv zeta. unfold get, rb_nth, rb_bits. cbn [Nat.modulo Nat.divmod snd Nat.sub nth flat_map app].
  change (15 + 1 - 0) with 16. change (31 + 1 - 16) with 16. rewrite !N.pow_0_r, !N.div_1_r.
  rewrite !u16_xor, !(fun a => N.shiftr_div_pow2 a 16). change (2 ^ 16) with 65536.
  repeat match goal with |- context [N.lxor (as_u16 ?a) (as_u16 ?b)] =>
    let H := fresh "L" in pose proof (u16_xor_lt a b) as H;
    unfold as_u16 in H; change (as_u16 a) with (a mod 65536); change (as_u16 b) with (b mod 65536);
    let t := fresh "t" in set (t := N.lxor (a mod 65536) (b mod 65536)) in *; clearbody t end.
  change (2 ^ 32) with (65536 * 65536). change (2 ^ 48) with (65536 * (65536 * 65536)).
  change (2 ^ 64) with (65536 * (65536 * (65536 * 65536))). change (2 ^ 80) with (65536 * (65536 * (65536 * (65536 * 65536)))).
  change (2 ^ 96) with (65536 * (65536 * (65536 * (65536 * (65536 * 65536))))).
  change (2 ^ 112) with (65536 * (65536 * (65536 * (65536 * (65536 * (65536 * 65536)))))).
  match goal with |- _ = to_le 16 ?e =>
    replace e with (t + 65536 * (t0 + 65536 * (t1 + 65536 * (t2 + 65536 * (t3 + 65536 * (t4 + 65536 * (t5 + 65536 * (t6 + 65536 * 0))))))))
      by ring end.
  rewrite !to_le_16 by assumption. reflexivity.
Qed.

(** ** Blocks *)
Lemma next_block_ok ck s : rwf s ->
  exists s', next_block ck s = Ok (rb_octets 16 (rb_extract (rb_next (to_spec s))), s') /\ rwf s' /\ to_spec s' = rb_next (to_spec s).
Proof.
  intros H. unfold next_block. destruct (next_state_ok ck s H) as [s' [E [Hwf Es]]]. rewrite E. cbn [bind].
  exists s'. rewrite extract_ok by apply Hwf. rewrite Es. auto.
Qed.
Lemma rb_block_shift s i : rb_block (rb_next s) i = rb_block s (S i).
Proof. unfold rb_block. f_equal. symmetry. apply iter_S_r. Qed.
Lemma rabbit_write_ok ck k : forall s, rwf s ->
  exists s', rabbit_write ck k s = Ok (flat_map (fun i => rb_octets 16 (rb_block (to_spec s) i)) (seq 0 k), s')
             /\ rwf s' /\ to_spec s' = Nat.iter k rb_next (to_spec s).
Proof.
  induction k as [|k IH]; intros s H; cbn [rabbit_write].
  - exists s. repeat match goal with |- _ /\ _ => split end; auto.
  - destruct (next_block_ok ck s H) as [s1 [E1 [H1 Es1]]]. rewrite E1. cbn [bind].
    destruct (IH s1 H1) as [s2 [E2 [H2 Es2]]]. rewrite E2. cbn [bind]. exists s2. split; [|split; [assumption|]].
    + cbn [seq flat_map]. do 2 f_equal. unfold rb_block at 2. cbn [Nat.iter nat_rect].
      f_equal. rewrite <- seq_shift, flat_map_concat_map, (flat_map_concat_map _ (map S _)), map_map. f_equal.
      apply map_ext. intros i. rewrite Es1, rb_block_shift. reflexivity.
    + rewrite Es2, Es1. symmetry. apply iter_S_r.
Qed.

(** ** The odometer *)
(** Eight 32-bit counters as one 256-bit integer. *)
Definition ctr_int (c : list N) : N := fold_right (fun w acc => w + 2 ^ 32 * acc) 0 c.
Definition P256 : N := 2 ^ 256 - 1.
Lemma odometer c b : length c = 8%nat ->
  ctr_int (rb_tab (rb_counter c b)) + 2 ^ 256 * rb_carry c b 8 = ctr_int c + ctr_int rb_A + b.
Proof.
  intros Hl. do 8 (destruct c as [|? c]; [discriminate Hl|]). destruct c; [|discriminate Hl].
  unfold rb_tab. cbn [map seq]. unfold rb_counter.
  assert (D : forall t, t mod WORD_SIZE = t - M32 * (t / WORD_SIZE)).
  { intros t. rewrite WORD_SIZE_eq. lia. }
  assert (D2 : forall t, M32 * (t / WORD_SIZE) <= t) by (intros t; rewrite WORD_SIZE_eq; lia).
  cbn [rb_carry]. unfold rb_nth. cbn [Nat.modulo Nat.divmod snd Nat.sub nth rb_A].
  rewrite !D.
  repeat match goal with
  | |- context [?t / WORD_SIZE] =>
      lazymatch t with context [_ / WORD_SIZE] => fail | _ =>
        let H := fresh in pose proof (D2 t) as H; let q := fresh "q" in set (q := t / WORD_SIZE) in *; clearbody q end
  end.
  unfold ctr_int, rb_A. cbn [fold_right]. change (2 ^ 32) with M32.
  change (2 ^ 256) with (M32 * (M32 * (M32 * (M32 * (M32 * (M32 * (M32 * M32))))))).
  clear D D2 Hl.
  repeat match goal with H : M32 * ?q <= ?t |- context [?t - M32 * ?q] =>
    let r := fresh "r" in let E := fresh "E" in
    assert (E : exists r, t = M32 * q + r) by (exists (t - M32 * q); lia); destruct E as [r E];
    replace (t - M32 * q) with r by lia; clear H end.
  lia.
Qed.

Definition rb_wf (s : rb_state) : Prop := length (rb_c s) = 8%nat.
(** The invariant quantity of the counter system, modulo 2^256 - 1. *)
Definition odo (s : rb_state) : N := ctr_int (rb_c s) + rb_b s.
Lemma odo_next s : rb_wf s -> odo (rb_next s) mod P256 = (odo s + ctr_int rb_A) mod P256.
Proof.
  intros Hl. unfold odo. cbn [rb_next rb_c rb_b]. pose proof (odometer (rb_c s) (rb_b s) Hl) as E.
  set (T := ctr_int (rb_tab _)) in *. set (k := rb_carry _ _ 8) in *. clearbody T k.
  replace (ctr_int (rb_c s) + rb_b s + ctr_int rb_A) with (T + k + k * P256).
  - rewrite N.mod_add by discriminate. reflexivity.
  - replace (2 ^ 256) with (P256 + 1) in E by reflexivity. lia.
Qed.
Lemma rb_next_wf s : rb_wf (rb_next s).
Proof. reflexivity. Qed.
Lemma odo_iter i s : rb_wf s -> odo (Nat.iter i rb_next s) mod P256 = (odo s + N.of_nat i * ctr_int rb_A) mod P256.
Proof.
  intros Hs. induction i as [|i IH].
  - cbn [Nat.iter nat_rect]. rewrite N.mul_0_l, N.add_0_r. reflexivity.
  - change (Nat.iter (S i) rb_next s) with (rb_next (Nat.iter i rb_next s)). rewrite odo_next.
    + rewrite <- N.add_mod_idemp_l, IH, N.add_mod_idemp_l by discriminate. f_equal. lia.
    + destruct i; [assumption | apply rb_next_wf].
Qed.
Lemma A_coprime : N.gcd P256 (ctr_int rb_A) = 1.
Proof. vm_compute. reflexivity. Qed.
(** Two iterates whose counter system agrees are a multiple of 2^256-1 steps apart. *)
Lemma counter_period s i d : rb_wf s ->
  odo (Nat.iter (i + d) rb_next s) = odo (Nat.iter i rb_next s) -> (P256 | N.of_nat d).
Proof.
  intros Hs E. pose proof (odo_iter (i + d) s Hs) as E1. pose proof (odo_iter i s Hs) as E2. rewrite E in E1. rewrite E1 in E2. clear E E1.
  set (a := odo s) in *. set (A := ctr_int rb_A) in *.
  apply (N.gauss _ A); [|exact A_coprime].
  apply N.mod_divide; [discriminate|].
  rewrite Nat2N.inj_add, N.mul_add_distr_r, N.add_assoc in E2.
  set (u := a + N.of_nat i * A) in *. set (v := N.of_nat d * A) in *. replace (A * N.of_nat d) with v by (unfold v; lia).
  clearbody u v. clear - E2. assert (HP : P256 <> 0) by discriminate.
  pose proof (N.div_mod (u + v) P256 HP) as H1. pose proof (N.div_mod u P256 HP) as H2. rewrite E2 in H1.
  assert (Hle : u / P256 <= (u + v) / P256) by (apply N.div_le_mono; lia).
  apply N.mod_divide; [assumption|]. exists ((u + v) / P256 - u / P256).
  rewrite N.mul_sub_distr_r. lia.
Qed.
Lemma no_repeat s i d : rb_wf s -> (0 < d)%nat -> N.of_nat d < P256 ->
  odo (Nat.iter (i + d) rb_next s) <> odo (Nat.iter i rb_next s).
Proof.
  intros Hs Hd Hlt E. apply (counter_period s i d Hs) in E. apply N.divide_pos_le in E; lia.
Qed.
