(** C54: the intrinsics of [Simd.v] against the vendors' pseudo-code.

    The vendors describe a register as one wide integer [DEST] and an operation by
    assignments to its bit fields [DEST[i+31:i]].  Here a register's integer is [value],
    a bit field is [field], and each statement is the vendor's line for that field. *)
From Verif Require Import Word WordLemmas Simd.
From Coq Require Import ZArith Lia ZifyBool ZifyNat ZifyN.
Ltac Zify.zify_post_hook ::= Z.div_mod_to_equations.

(** The integer held by a register, lane 0 least significant. *)
Fixpoint value (r : list N) : N := match r with [] => 0 | x :: r => x + 2 ^ 32 * value r end.
Definition value2 (r : list (list N)) : N := value (concat r).
(** Bits [lo+w-1 : lo]. *)
Definition field (v lo w : N) : N := (v / 2 ^ lo) mod 2 ^ w.
(** A 128-bit register; a register of [k] such groups. *)
Definition reg128 (r : list N) : Prop := length r = 4%nat /\ Forall (fun x => x < 2 ^ 32) r.
Definition reg (k : nat) (r : list (list N)) : Prop := length r = k /\ Forall reg128 r.

Lemma lane32 r : Forall (fun x => x < 2 ^ 32) r -> forall i, field (value r) (32 * N.of_nat i) 32 = nth i r 0.
Proof.
  unfold field. induction 1 as [|x r Hx Hr IH]; intros i.
  - cbn [value]. rewrite N.div_0_l by (apply N.pow_nonzero; lia). destruct i; reflexivity.
  - cbn [value]. destruct i as [|i].
    + cbn [nth]. change (32 * N.of_nat 0) with 0. change (2 ^ 0) with 1. rewrite N.div_1_r.
      rewrite N.mul_comm, N.mod_add by discriminate. apply N.mod_small. assumption.
    + cbn [nth]. rewrite <- IH. f_equal.
      replace (32 * N.of_nat (S i)) with (32 + 32 * N.of_nat i) by lia.
      rewrite N.pow_add_r, <- N.div_div by (apply N.pow_nonzero; lia). f_equal.
      rewrite N.mul_comm, N.div_add by discriminate. rewrite N.div_small by assumption. reflexivity.
Qed.
(** Fields inside one lane. *)
Lemma sub_field v a b w : b + w <= 32 -> field v (32 * a + b) w = (field v (32 * a) 32 / 2 ^ b) mod 2 ^ w.
Proof.
  intros H. unfold field. rewrite N.pow_add_r, <- N.div_div by (apply N.pow_nonzero; lia).
  generalize (v / 2 ^ (32 * a)). intros x.
  replace 32 with (b + w + (32 - b - w)) by lia. rewrite (N.pow_add_r 2 (b + w)).
  rewrite N.mod_mul_r by (apply N.pow_nonzero; lia).
  rewrite (N.pow_add_r 2 b w). rewrite (N.mod_mul_r x (2 ^ b) (2 ^ w)) by (apply N.pow_nonzero; lia).
  assert (Pb : 2 ^ b <> 0) by (apply N.pow_nonzero; lia). assert (Pw : 2 ^ w <> 0) by (apply N.pow_nonzero; lia).
  set (q := (x / (2 ^ b * 2 ^ w)) mod 2 ^ (32 - b - w)).
  replace (x mod 2 ^ b + 2 ^ b * ((x / 2 ^ b) mod 2 ^ w) + 2 ^ b * 2 ^ w * q)
    with (x mod 2 ^ b + ((x / 2 ^ b) mod 2 ^ w + q * 2 ^ w) * 2 ^ b) by ring.
  rewrite N.div_add by assumption. rewrite (N.div_small (x mod 2 ^ b)) by (apply N.mod_lt; assumption).
  rewrite N.add_0_l, N.mod_add by assumption. symmetry. apply N.mod_mod. assumption.
Qed.
(** A 64-bit field is two lanes. *)
Lemma lane64 r : Forall (fun x => x < 2 ^ 32) r -> forall j,
  field (value r) (64 * N.of_nat j) 64 = nth (2 * j) r 0 + 2 ^ 32 * nth (2 * j + 1) r 0.
Proof.
  intros H j. rewrite <- !(lane32 r H). unfold field.
  replace (64 * N.of_nat j) with (32 * N.of_nat (2 * j)) by lia.
  replace (32 * N.of_nat (2 * j + 1)) with (32 * N.of_nat (2 * j) + 32) by lia.
  rewrite (N.pow_add_r 2 _ 32), <- N.div_div by (apply N.pow_nonzero; lia).
  change (2 ^ 64) with (2 ^ 32 * 2 ^ 32). rewrite N.mod_mul_r by discriminate. reflexivity.
Qed.
(** A byte. *)
Lemma lane8 r : Forall (fun x => x < 2 ^ 32) r -> forall i, field (value r) (8 * N.of_nat i) 8 = nth i (bytes_of_words r) 0.
Proof.
  intros H i. pose proof (N.div_mod' (N.of_nat i) 4) as E. pose proof (N.mod_lt (N.of_nat i) 4 ltac:(lia)) as L.
  replace (8 * N.of_nat i) with (32 * N.of_nat (i / 4) + 8 * N.of_nat (i mod 4)) by lia.
  rewrite sub_field by lia. rewrite lane32 by assumption.
  rewrite (Nat.div_mod i 4) at 3 by lia. assert (Hm : (i mod 4 < 4)%nat) by (apply Nat.mod_upper_bound; lia).
  generalize dependent (i mod 4)%nat. generalize (i / 4)%nat. clear E L i. intros q m Hm.
  revert q; induction r as [|x r IH]; intros q.
  - unfold bytes_of_words. cbn [flat_map]. destruct (4 * q + m)%nat; destruct q;
      cbn [nth]; rewrite N.div_0_l by (apply N.pow_nonzero; lia); reflexivity.
  - unfold bytes_of_words. cbn [flat_map]. fold (bytes_of_words r). destruct q as [|q].
    + change (4 * 0 + m)%nat with m. cbn [nth to_le app].
      do 4 (destruct m as [|m]; [cbn [nth]; rewrite ?N.div_div by lia; change (2 ^ 8) with 256; f_equal; try f_equal;
        first [reflexivity | rewrite N.div_1_r; reflexivity] |]). lia.
    + replace (4 * S q + m)%nat with (4 + (4 * q + m))%nat by lia.
      rewrite app_nth2 by (rewrite to_le_length; lia). rewrite to_le_length. replace (4 + (4 * q + m) - 4)%nat with (4 * q + m)%nat by lia.
      inversion H; subst. cbn [nth]. apply IH. assumption.
Qed.

(** ** Wide registers, from their 128-bit groups *)
Lemma value_app a b : value (a ++ b) = value a + 2 ^ (32 * N.of_nat (length a)) * value b.
Proof.
  induction a as [|x a IH]; [change (2 ^ (32 * N.of_nat (length (@nil N)))) with 1; cbn [app value]; lia|].
  cbn [app value length]. rewrite IH. replace (32 * N.of_nat (S (length a))) with (32 + 32 * N.of_nat (length a)) by lia.
  rewrite N.pow_add_r. ring.
Qed.
Lemma value_lt r : Forall (fun x => x < 2 ^ 32) r -> value r < 2 ^ (32 * N.of_nat (length r)).
Proof.
  induction 1 as [|x r Hx Hr IH]; [reflexivity|]. cbn [value length].
  replace (32 * N.of_nat (S (length r))) with (32 + 32 * N.of_nat (length r)) by lia. rewrite N.pow_add_r. nia.
Qed.
Lemma value2_cons g r : reg128 g -> value2 (g :: r) = value g + 2 ^ 128 * value2 r.
Proof. intros [H _]. unfold value2. cbn [concat]. rewrite value_app, H. reflexivity. Qed.
Lemma field_low g v x w : g < 2 ^ 128 -> x + w <= 128 -> field (g + 2 ^ 128 * v) x w = field g x w.
Proof.
  intros Hg Hx. unfold field. replace 128 with (x + w + (128 - x - w)) by lia. rewrite !N.pow_add_r.
  replace (g + 2 ^ x * 2 ^ w * 2 ^ (128 - x - w) * v) with (g + (2 ^ (128 - x - w) * v * 2 ^ w) * 2 ^ x) by ring.
  rewrite N.div_add, N.mod_add by (apply N.pow_nonzero; lia). reflexivity.
Qed.
Lemma field_high g v x w : g < 2 ^ 128 -> field (g + 2 ^ 128 * v) (128 + x) w = field v x w.
Proof.
  intros Hg. unfold field. rewrite N.pow_add_r, <- N.div_div by (apply N.pow_nonzero; lia).
  rewrite (N.mul_comm (2 ^ 128)), N.div_add by (apply N.pow_nonzero; lia). rewrite (N.div_small g) by assumption. reflexivity.
Qed.
Lemma reg128_lt g : reg128 g -> value g < 2 ^ 128.
Proof. intros [H1 H2]. pose proof (value_lt g H2) as L. rewrite H1 in L. exact L. Qed.

(** [op] acts on every [w]-bit field as [f]. *)
Definition fieldwise2 (w n : N) (f : N -> N -> N) (v a b : N) : Prop :=
  forall i, i < n -> field v (w * i) w = f (field a (w * i) w) (field b (w * i) w).
Definition fieldwise1 (w n : N) (f : N -> N) (v a : N) : Prop :=
  forall i, i < n -> field v (w * i) w = f (field a (w * i) w).
Lemma wide2 (op : list N -> list N -> list N) f w n k : w * n = 128 ->
  (forall a b, reg128 a -> reg128 b -> reg128 (op a b) /\ fieldwise2 w n f (value (op a b)) (value a) (value b)) ->
  forall a b, reg k a -> reg k b ->
  reg k (map2 op a b) /\ fieldwise2 w (n * N.of_nat k) f (value2 (map2 op a b)) (value2 a) (value2 b).
Proof.
  intros Hw Hop. induction k as [|k IH]; intros a b [La Ha] [Lb Hb].
  - destruct a, b; try discriminate. split; [split; [reflexivity|constructor]|]. intros i Hi. lia.
  - destruct a as [|x a], b as [|y b]; try discriminate. inversion Ha; subst. inversion Hb; subst.
    destruct (IH a b) as [R F]; [split; [cbn in La; lia|assumption] | split; [cbn in Lb; lia|assumption]|].
    destruct (Hop x y) as [Ro Fo]; try assumption. cbn [map2]. split.
    + destruct R as [R1 R2]. split; [cbn [length]; lia | constructor; assumption].
    + intros i Hi. rewrite !value2_cons by assumption.
      destruct (N.lt_ge_cases i n) as [L|L].
      * rewrite !field_low by (first [apply reg128_lt; assumption | nia]). apply Fo. assumption.
      * replace (w * i) with (128 + w * (i - n)) by nia. rewrite !field_high by (apply reg128_lt; assumption). apply F. lia.
Qed.
Lemma wide1 (op : list N -> list N) f w n k : w * n = 128 ->
  (forall a, reg128 a -> reg128 (op a) /\ fieldwise1 w n f (value (op a)) (value a)) ->
  forall a, reg k a -> reg k (map op a) /\ fieldwise1 w (n * N.of_nat k) f (value2 (map op a)) (value2 a).
Proof.
  intros Hw Hop. induction k as [|k IH]; intros a [La Ha].
  - destruct a; try discriminate. split; [split; [reflexivity|constructor]|]. intros i Hi. lia.
  - destruct a as [|x a]; try discriminate. inversion Ha; subst.
    destruct (IH a) as [R F]; [split; [cbn in La; lia|assumption] |].
    destruct (Hop x) as [Ro Fo]; try assumption. cbn [map]. split.
    + destruct R as [R1 R2]. split; [cbn [length]; lia | constructor; assumption].
    + intros i Hi. rewrite !value2_cons by assumption.
      destruct (N.lt_ge_cases i n) as [L|L].
      * rewrite !field_low by (first [apply reg128_lt; assumption | nia]). apply Fo. assumption.
      * replace (w * i) with (128 + w * (i - n)) by nia. rewrite !field_high by (apply reg128_lt; assumption). apply F. lia.
Qed.

(** ** 128-bit operations *)
Ltac dreg a :=
  let L := fresh "L" in let W := fresh "W" in
  match goal with H : reg128 a |- _ => destruct H as [L W] end;
  destruct a as [|?x [|?x [|?x [|?x [|]]]]]; cbn [length] in L; try discriminate L; clear L;
  repeat match goal with H : Forall _ (_ :: _) |- _ => inversion_clear H | H : Forall _ [] |- _ => clear H end.
Ltac cases4 i := let n := fresh in
  replace i with (N.of_nat (N.to_nat i)) by lia; assert (n : (N.to_nat i < 4)%nat) by lia;
  generalize dependent (N.to_nat i); intros; clear dependent i.

Lemma lanewise2 (op : list N -> list N -> list N) f :
  (forall x y, x < 2 ^ 32 -> y < 2 ^ 32 -> f x y < 2 ^ 32) ->
  (forall a b, op a b = map2 f a b) ->
  forall a b, reg128 a -> reg128 b -> reg128 (op a b) /\ fieldwise2 32 4 f (value (op a b)) (value a) (value b).
Proof.
  intros Hf E a b Ha Hb. rewrite E. assert (R : reg128 (map2 f a b)).
  { dreg a. dreg b. cbn [map2]. split; [reflexivity|]. repeat constructor; apply Hf; assumption. }
  split; [assumption|]. intros i Hi. replace i with (N.of_nat (N.to_nat i)) by lia. rewrite !lane32 by (apply R || apply Ha || apply Hb).
  assert (Hn : (N.to_nat i < 4)%nat) by lia. revert Hn. generalize (N.to_nat i). intros j Hj. clear R Hi i.
  dreg a. dreg b. do 4 (destruct j as [|j]; [reflexivity|]). lia.
Qed.
Lemma lanewise1 (op : list N -> list N) f :
  (forall x, x < 2 ^ 32 -> f x < 2 ^ 32) ->
  (forall a, reg128 a -> op a = map f a) ->
  forall a, reg128 a -> reg128 (op a) /\ fieldwise1 32 4 f (value (op a)) (value a).
Proof.
  intros Hf E a Ha. rewrite E by assumption. assert (R : reg128 (map f a)).
  { dreg a. split; [reflexivity|]. repeat constructor; apply Hf; assumption. }
  split; [assumption|]. intros i Hi. replace i with (N.of_nat (N.to_nat i)) by lia. rewrite !lane32 by (apply R || apply Ha).
  assert (Hn : (N.to_nat i < 4)%nat) by lia. revert Hn. generalize (N.to_nat i). intros j Hj. clear R Hi i E.
  dreg a. do 4 (destruct j as [|j]; [reflexivity|]). lia.
Qed.

(** DEST[i+31:i] := a[i+31:i] + b[i+31:i] *)
Lemma p_add32 a b : reg128 a -> reg128 b -> reg128 (mm_add_epi32 a b)
  /\ fieldwise2 32 4 (fun x y => (x + y) mod 2 ^ 32) (value (mm_add_epi32 a b)) (value a) (value b).
Proof. apply (lanewise2 mm_add_epi32 (fun x y => (x + y) mod 2 ^ 32)); [intros; apply N.mod_lt; discriminate | reflexivity]. Qed.
(** DEST[i+63:i] := a[i+63:i] + b[i+63:i] *)
Lemma p_add64 a b : reg128 a -> reg128 b -> reg128 (mm_add_epi64 a b)
  /\ fieldwise2 64 2 (fun x y => (x + y) mod 2 ^ 64) (value (mm_add_epi64 a b)) (value a) (value b).
Proof.
  intros Ha Hb. assert (R : reg128 (mm_add_epi64 a b)).
  { dreg a. dreg b. cbn [mm_add_epi64]. cbv zeta. split; [reflexivity|]. change (2 ^ 32) with M32 in *.
    repeat constructor; lia. }
  split; [assumption|]. intros i Hi. replace i with (N.of_nat (N.to_nat i)) by lia. rewrite !lane64 by (apply R || apply Ha || apply Hb).
  assert (Hn : (N.to_nat i < 2)%nat) by lia. revert Hn. generalize (N.to_nat i). intros j Hj. clear R Hi i.
  dreg a. dreg b. change (2 ^ 32) with M32 in *. change (2 ^ 64) with M64.
  do 2 (destruct j as [|j]; [cbn [mm_add_epi64 nth Nat.mul Nat.add]; cbv zeta; lia|]). lia.
Qed.
Lemma p_xor a b : reg128 a -> reg128 b -> reg128 (mm_xor a b)
  /\ fieldwise2 32 4 N.lxor (value (mm_xor a b)) (value a) (value b).
Proof. apply (lanewise2 mm_xor N.lxor); [intros; apply lxor_lt_pow2; assumption | reflexivity]. Qed.
Lemma p_or a b : reg128 a -> reg128 b -> reg128 (vorrq_u32 a b)
  /\ fieldwise2 32 4 N.lor (value (vorrq_u32 a b)) (value a) (value b).
Proof.
  apply (lanewise2 vorrq_u32 N.lor); [|reflexivity]. intros x y Hx Hy.
  destruct (N.eq_dec (N.lor x y) 0) as [->|Hz]; [reflexivity|]. apply N.log2_lt_pow2; [lia|].
  rewrite N.log2_lor. apply N.max_lub_lt.
  - destruct (N.eq_dec x 0) as [->|]; [reflexivity | apply N.log2_lt_pow2; lia].
  - destruct (N.eq_dec y 0) as [->|]; [reflexivity | apply N.log2_lt_pow2; lia].
Qed.
Lemma p_slli k a : reg128 a -> reg128 (mm_slli_epi32 a k)
  /\ fieldwise1 32 4 (fun x => (x * 2 ^ k) mod 2 ^ 32) (value (mm_slli_epi32 a k)) (value a).
Proof.
  apply (lanewise1 (fun a => mm_slli_epi32 a k)); [intros; apply N.mod_lt; discriminate|].
  intros b _. apply map_ext. intros x. rewrite N.shiftl_mul_pow2. reflexivity.
Qed.
Lemma p_srli k a : reg128 a -> reg128 (mm_srli_epi32 a k)
  /\ fieldwise1 32 4 (fun x => x / 2 ^ k) (value (mm_srli_epi32 a k)) (value a).
Proof.
  apply (lanewise1 (fun a => mm_srli_epi32 a k)).
  - intros x Hx. eapply N.le_lt_trans; [|exact Hx]. apply N.div_le_upper_bound; [apply N.pow_nonzero; lia|].
    pose proof (N.pow_nonzero 2 k ltac:(lia)). nia.
  - intros b [_ Hb]. unfold mm_srli_epi32. apply map_ext_in. intros x Hx. rewrite Forall_forall in Hb.
    rewrite N.mod_small by (apply Hb; assumption). apply N.shiftr_div_pow2.
Qed.
(** LEFT_ROTATE_DWORDS: (src << count) OR (src >> (32 - count)) *)
Lemma p_rol k a : 0 < k < 32 -> reg128 a -> reg128 (mm_rol_epi32 k a)
  /\ fieldwise1 32 4 (fun x => (x * 2 ^ k) mod 2 ^ 32 + x / 2 ^ (32 - k)) (value (mm_rol_epi32 k a)) (value a).
Proof.
  intros Hk. apply (lanewise1 (mm_rol_epi32 k)).
  - intros x Hx. pose proof (rotl32_lt x k ltac:(lia)) as L. rewrite rotl32_arith in L by lia.
    rewrite (N.mod_small x) in L by assumption. exact L.
  - intros b [_ Hb]. unfold mm_rol_epi32. apply map_ext_in. intros x Hx. rewrite Forall_forall in Hb.
    rewrite rotl32_arith by lia. rewrite (N.mod_small x) by (apply Hb; assumption). reflexivity.
Qed.

(** DEST[31+32i : 32i] := a's dword number imm8[2i+1 : 2i] *)
Lemma p_shuffle32 imm a : reg128 a -> reg128 (mm_shuffle_epi32 a imm)
  /\ forall i, i < 4 -> field (value (mm_shuffle_epi32 a imm)) (32 * i) 32 = field (value a) (32 * field imm (2 * i) 2) 32.
Proof.
  intros Ha. assert (I : forall i, imm2 imm i = N.to_nat (field imm (2 * i) 2)).
  { intros i. unfold imm2, field. f_equal. change 3 with (N.ones 2). rewrite N.land_ones, N.shiftr_div_pow2. reflexivity. }
  assert (F : forall i, field imm (2 * i) 2 < 4) by (intros; unfold field; apply N.mod_lt; discriminate).
  unfold mm_shuffle_epi32, get. rewrite !I.
  assert (G : forall i, nth (N.to_nat (field imm (2 * i) 2)) a 0 = field (value a) (32 * field imm (2 * i) 2) 32).
  { intros i. rewrite <- lane32 by apply Ha. f_equal. lia. }
  rewrite !G. split.
  - split; [reflexivity|]. repeat constructor; unfold field; apply N.mod_lt; discriminate.
  - intros i Hi. replace i with (N.of_nat (N.to_nat i)) at 1 by lia. rewrite lane32.
    2:{ repeat constructor; unfold field; apply N.mod_lt; discriminate. }
    destruct (N.eq_dec i 0) as [->|]; [reflexivity|]. destruct (N.eq_dec i 1) as [->|]; [reflexivity|].
    destruct (N.eq_dec i 2) as [->|]; [reflexivity|]. replace i with 3 by lia. reflexivity.
Qed.
Lemma value_of_bytes bs : length bs = 16%nat -> Forall (fun b => b < 256) bs ->
  reg128 (words_of_bytes bs) /\ forall i, field (value (words_of_bytes bs)) (8 * N.of_nat i) 8 = nth i bs 0.
Proof.
  intros L B. pose proof (words_of_bytes_length 4 bs L) as Lw. pose proof (words_of_bytes_wf bs B) as W.
  assert (R : reg128 (words_of_bytes bs)) by (split; assumption). split; [assumption|].
  intros i. rewrite lane8 by assumption. rewrite (bytes_of_words_of_bytes 4) by assumption. reflexivity.
Qed.
(** IF b[7+8i] == 1 THEN DEST[7+8i : 8i] := 0 ELSE a's byte number b[3+8i : 8i] *)
Lemma p_shuffle8 a b : reg128 a -> reg128 b -> reg128 (mm_shuffle_epi8 a b)
  /\ forall i, i < 16 -> field (value (mm_shuffle_epi8 a b)) (8 * i) 8
     = if field (value b) (8 * i + 7) 1 =? 1 then 0 else field (value a) (8 * field (value b) (8 * i) 4) 8.
Proof.
  intros Ha Hb. unfold mm_shuffle_epi8.
  match goal with |- reg128 (words_of_bytes ?l) /\ _ => set (bs := l) end.
  pose proof (bytes_of_words_length b) as Lb. rewrite (proj1 Hb) in Lb.
  pose proof (bytes_of_words_bytes a) as Ba. pose proof (bytes_of_words_bytes b) as Bb.
  destruct (value_of_bytes bs) as [R F].
  - unfold bs. rewrite map_length. exact Lb.
  - unfold bs. apply Forall_forall. intros x Hx. apply in_map_iff in Hx. destruct Hx as [m [<- _]].
    destruct (N.testbit m 7); [reflexivity|]. unfold get.
    destruct (Nat.lt_ge_cases (N.to_nat (N.land m 15)) (length (bytes_of_words a))) as [L|L].
    + unfold bytes in Ba. rewrite Forall_forall in Ba. apply Ba. apply nth_In. assumption.
    + rewrite nth_overflow by assumption. reflexivity.
  - split; [assumption|]. intros i Hi. replace (8 * i) with (8 * N.of_nat (N.to_nat i)) at 1 by lia. rewrite F. unfold bs.
    set (m := nth (N.to_nat i) (bytes_of_words b) 0).
    assert (Em : m = field (value b) (8 * i) 8).
    { unfold m. rewrite <- lane8 by apply Hb. f_equal. lia. }
    rewrite nth_indep with (d' := (fun m => if N.testbit m 7 then 0 else get (bytes_of_words a) (N.to_nat (N.land m 15))) 0)
      by (rewrite map_length, Lb; lia).
    rewrite (map_nth (fun m => if N.testbit m 7 then 0 else get (bytes_of_words a) (N.to_nat (N.land m 15)))). fold m.
    assert (E7 : field (value b) (8 * i + 7) 1 = m / 2 ^ 7).
    { rewrite Em. unfold field. rewrite N.pow_add_r, <- N.div_div by (apply N.pow_nonzero; lia).
      generalize (value b / 2 ^ (8 * i)). intros x. change (2 ^ 7) with 128. change (2 ^ 1) with 2. change (2 ^ 8) with 256. lia. }
    assert (E4 : field (value b) (8 * i) 4 = m mod 2 ^ 4).
    { rewrite Em. unfold field. generalize (value b / 2 ^ (8 * i)). intros x. change (2 ^ 4) with 16. change (2 ^ 8) with 256. lia. }
    assert (Hm : m < 256) by (rewrite Em; unfold field; apply N.mod_lt; discriminate).
    rewrite E7, E4. change 15 with (N.ones 4). rewrite N.land_ones.
    assert (T : N.testbit m 7 = (m / 2 ^ 7 =? 1)).
    { rewrite <- N.shiftr_div_pow2. change 7 with (0 + 7) at 1. rewrite <- N.shiftr_spec by lia. rewrite N.shiftr_div_pow2.
      assert (m / 2 ^ 7 < 2) by (change (2 ^ 7) with 128; lia).
      assert (m / 2 ^ 7 = 0 \/ m / 2 ^ 7 = 1) as [-> | ->] by lia; reflexivity. }
    rewrite T. destruct (m / 2 ^ 7 =? 1); [reflexivity|]. unfold get. rewrite <- lane8 by apply Ha. f_equal. lia.
Qed.
Lemma p_set32 e3 e2 e1 e0 : e3 < 2 ^ 32 -> e2 < 2 ^ 32 -> e1 < 2 ^ 32 -> e0 < 2 ^ 32 ->
  reg128 (mm_set_epi32 e3 e2 e1 e0)
  /\ value (mm_set_epi32 e3 e2 e1 e0) = e0 + 2 ^ 32 * e1 + 2 ^ 64 * e2 + 2 ^ 96 * e3.
Proof.
  intros H3 H2 H1 H0. unfold mm_set_epi32. change (2 ^ 32) with M32 in *. split.
  - split; [reflexivity|]. repeat constructor; apply N.mod_lt; discriminate.
  - rewrite !N.mod_small by assumption. cbn [value]. change (2 ^ 32) with M32. change (2 ^ 64) with (M32 * M32).
    change (2 ^ 96) with (M32 * M32 * M32). ring.
Qed.
Lemma p_set64 e1 e0 : e1 < 2 ^ 64 -> e0 < 2 ^ 64 ->
  reg128 (mm_set_epi64x e1 e0) /\ value (mm_set_epi64x e1 e0) = e0 + 2 ^ 64 * e1.
Proof.
  intros H1 H0. unfold mm_set_epi64x. change (2 ^ 64) with M64 in *. split.
  - split; [reflexivity|]. repeat constructor; apply N.mod_lt; discriminate.
  - cbn [value]. change (2 ^ 32) with M32. change M64 with (M32 * M32) in *.
    rewrite (N.mod_small (e0 / M32)), (N.mod_small (e1 / M32)) by (apply N.div_lt_upper_bound; [discriminate | assumption]).
    pose proof (N.div_mod' e0 M32). pose proof (N.div_mod' e1 M32). nia.
Qed.

(** ** Lane-crossing operations *)
Lemma group128 r k : reg k r -> forall i, (i < k)%nat -> field (value2 r) (128 * N.of_nat i) 128 = value (nth i r []).
Proof.
  revert r; induction k as [|k IH]; intros r [L H] i Hi; [lia|]. destruct r as [|g r]; [discriminate|]. inversion H; subst.
  rewrite value2_cons by assumption. destruct i as [|i].
  - change (128 * N.of_nat 0) with 0. rewrite field_low by (first [apply reg128_lt; assumption | lia]). cbn [nth].
    unfold field. change (2 ^ 0) with 1. rewrite N.div_1_r. apply N.mod_small. apply reg128_lt. assumption.
  - replace (128 * N.of_nat (S i)) with (128 + 128 * N.of_nat i) by lia. rewrite field_high by (apply reg128_lt; assumption).
    cbn [nth]. apply IH; [split; [cbn in L; lia | assumption] | lia].
Qed.
Lemma imm2_field imm i : imm2 imm i = N.to_nat (field imm (2 * i) 2).
Proof. unfold imm2, field. f_equal. change 3 with (N.ones 2). rewrite N.land_ones, N.shiftr_div_pow2. reflexivity. Qed.
(** SELECT4: the two low results come from [a], the two high ones from [b]. *)
Lemma p_shuffle_i32x4 imm a b : reg 4 a -> reg 4 b -> reg 4 (mm512_shuffle_i32x4 imm a b)
  /\ forall i, i < 4 -> field (value2 (mm512_shuffle_i32x4 imm a b)) (128 * i) 128
     = field (value2 (if i <? 2 then a else b)) (128 * field imm (2 * i) 2) 128.
Proof.
  intros Ha Hb.
  assert (F : forall i, (N.to_nat (field imm (2 * i) 2) < 4)%nat).
  { intros i. assert (field imm (2 * i) 2 < 4) by (unfold field; apply N.mod_lt; discriminate). lia. }
  assert (N1 : forall r j, reg 4 r -> (j < 4)%nat -> reg128 (nth j r [])).
  { intros r j [L H] Hj. rewrite Forall_forall in H. apply H. apply nth_In. lia. }
  assert (R : reg 4 (mm512_shuffle_i32x4 imm a b)).
  { unfold mm512_shuffle_i32x4. rewrite !imm2_field. split; [reflexivity|]. repeat constructor; apply N1; first [assumption | apply F]. }
  split; [assumption|]. intros i Hi.
  replace (128 * i) with (128 * N.of_nat (N.to_nat i)) by lia. rewrite (group128 _ 4) by (try assumption; lia).
  replace (128 * field imm (2 * i) 2) with (128 * N.of_nat (N.to_nat (field imm (2 * i) 2))) by lia.
  rewrite (group128 _ 4) by (try apply F; destruct (i <? 2); assumption).
  unfold mm512_shuffle_i32x4. rewrite !imm2_field.
  destruct (N.eq_dec i 0) as [->|]; [reflexivity|]. destruct (N.eq_dec i 1) as [->|]; [reflexivity|].
  destruct (N.eq_dec i 2) as [->|]; [reflexivity|]. replace i with 3 by lia. reflexivity.
Qed.
Lemma qwords_nth l j : (2 * j + 1 < length l)%nat -> nth j (qwords l) (0, 0) = (nth (2 * j) l 0, nth (2 * j + 1) l 0).
Proof.
  revert l; induction j as [|j IH]; intros l H; (destruct l as [|x [|y l]]; cbn [length] in H; try lia).
  - reflexivity.
  - cbn [qwords nth]. replace (2 * S j)%nat with (S (S (2 * j))) by lia. cbn [nth Nat.add].
    rewrite IH by lia. replace (S (2 * j) + 1)%nat with (S (2 * j + 1)) by lia. reflexivity.
Qed.
Lemma qwords_length n l : length l = (2 * n)%nat -> length (qwords l) = n.
Proof.
  revert l; induction n as [|n IH]; intros l H; [destruct l; [reflexivity|discriminate]|].
  destruct l as [|x [|y l]]; cbn [length] in H; try lia. cbn [qwords length]. rewrite IH; lia.
Qed.
Lemma reg_lanes k r : reg k r -> length (concat r) = (4 * k)%nat /\ Forall (fun x => x < 2 ^ 32) (concat r).
Proof.
  revert r; induction k as [|k IH]; intros r [L H].
  - destruct r; [split; [reflexivity | constructor] | discriminate].
  - destruct r as [|g r]; [discriminate|]. inversion H as [|? ? [Lg Wg] Hr]; subst. destruct (IH r) as [L' W'].
    { split; [cbn in L; lia | assumption]. }
    cbn [concat]. rewrite app_length. split; [lia | apply Forall_app; auto].
Qed.
Lemma concat_of_qwords n l : length l = (2 * n)%nat -> concat (of_qwords l) = flat_map (fun p => [fst p; snd p]) l
  /\ (Forall (fun p => fst p < 2 ^ 32 /\ snd p < 2 ^ 32) l -> reg n (of_qwords l)).
Proof.
  revert l; induction n as [|n IH]; intros l H.
  - destruct l; [|discriminate]. split; [reflexivity | intros; split; [reflexivity | constructor]].
  - destruct l as [|[a b] [|[c d] l]]; cbn [length] in H; try lia. destruct (IH l) as [E R]; [lia|].
    cbn [of_qwords concat flat_map fst snd]. split; [rewrite E; reflexivity|].
    intros F. inversion F as [|? ? [F1 F2] F']; subst. inversion F' as [|? ? [F3 F4] F'']; subst.
    destruct (R F'') as [R1 R2]. split; [cbn [length]; lia|]. constructor; [|assumption].
    split; [reflexivity|]. repeat constructor; assumption.
Qed.
Lemma nth_flat_pairs (l : list (N * N)) j : (j < length l)%nat ->
  nth (2 * j) (flat_map (fun p => [fst p; snd p]) l) 0 = fst (nth j l (0, 0))
  /\ nth (2 * j + 1) (flat_map (fun p => [fst p; snd p]) l) 0 = snd (nth j l (0, 0)).
Proof.
  revert l; induction j as [|j IH]; intros l H; (destruct l as [|p l]; cbn [length] in H; [lia|]).
  - split; reflexivity.
  - cbn [flat_map app]. replace (2 * S j)%nat with (S (S (2 * j))) by lia. cbn [nth Nat.add].
    replace (S (2 * j) + 1)%nat with (S (2 * j + 1)) by lia. cbn [nth]. apply IH. lia.
Qed.
(** off := idx[i+w-1:i]*64; DEST[i+63:i] := idx[i+w] ? b[off+63:off] : a[off+63:off];
    [k] 128-bit groups, [2k] qwords per source. *)
Lemma p_permutex2var bits k a idx b : 2 ^ bits = 4 * N.of_nat k -> reg k a -> reg k b ->
  length idx = (2 * k)%nat ->
  reg k (permutex2var_epi64 bits a idx b)
  /\ forall i, i < 2 * N.of_nat k ->
     let ix := nth (N.to_nat i) idx 0 mod (4 * N.of_nat k) in
     field (value2 (permutex2var_epi64 bits a idx b)) (64 * i) 64
     = if ix <? 2 * N.of_nat k then field (value2 a) (64 * ix) 64 else field (value2 b) (64 * (ix - 2 * N.of_nat k)) 64.
Proof.
  intros Hb Ra Rb Li. unfold permutex2var_epi64. rewrite Hb.
  destruct (reg_lanes _ _ Ra) as [La Wa]. destruct (reg_lanes _ _ Rb) as [Lb Wb].
  set (tbl := qwords (concat a) ++ qwords (concat b)).
  set (sel := map (fun i => nth (N.to_nat (i mod (4 * N.of_nat k))) tbl (0, 0)) idx).
  assert (LQ : forall l, length l = (4 * k)%nat -> length (qwords l) = (2 * k)%nat).
  { intros l H. apply qwords_length. lia. }
  assert (T : forall ix, ix < 4 * N.of_nat k -> nth (N.to_nat ix) tbl (0, 0)
      = if ix <? 2 * N.of_nat k then (nth (2 * N.to_nat ix) (concat a) 0, nth (2 * N.to_nat ix + 1) (concat a) 0)
        else (nth (2 * N.to_nat (ix - 2 * N.of_nat k)) (concat b) 0, nth (2 * N.to_nat (ix - 2 * N.of_nat k) + 1) (concat b) 0)).
  { intros ix Hix. unfold tbl. destruct (N.ltb_spec ix (2 * N.of_nat k)).
    - rewrite app_nth1 by (rewrite LQ by assumption; lia). apply qwords_nth. lia.
    - rewrite app_nth2 by (rewrite LQ by assumption; lia). rewrite LQ by assumption.
      replace (N.to_nat ix - 2 * k)%nat with (N.to_nat (ix - 2 * N.of_nat k)) by lia. apply qwords_nth. lia. }
  assert (Ls : length sel = (2 * k)%nat) by (unfold sel; rewrite map_length; assumption).
  assert (W : forall l j, Forall (fun x => x < 2 ^ 32) l -> nth j l 0 < 2 ^ 32).
  { intros l j Hl. destruct (Nat.lt_ge_cases j (length l)).
    - rewrite Forall_forall in Hl. apply Hl, nth_In. assumption.
    - rewrite nth_overflow by assumption. reflexivity. }
  destruct (concat_of_qwords k sel Ls) as [E R].
  assert (R' : reg k (of_qwords sel)).
  { apply R. apply Forall_forall. intros p Hp. unfold sel in Hp. apply in_map_iff in Hp. destruct Hp as [i [<- Hi]].
    assert (k <> 0)%nat by (destruct k; [destruct idx; [destruct Hi | discriminate Li] | lia]).
    rewrite T by (apply N.mod_lt; lia). destruct (_ <? _); cbn [fst snd]; split; apply W; assumption. }
  split; [exact R'|]. intros i Hi. cbv zeta. set (ix := nth (N.to_nat i) idx 0 mod (4 * N.of_nat k)).
  unfold value2. replace (64 * i) with (64 * N.of_nat (N.to_nat i)) by lia.
  rewrite lane64 by (apply (reg_lanes k); exact R'). rewrite E.
  destruct (nth_flat_pairs sel (N.to_nat i)) as [-> ->]; [lia|].
  assert (En : nth (N.to_nat i) sel (0, 0) = nth (N.to_nat ix) tbl (0, 0)).
  { unfold sel. rewrite nth_indep with (d' := (fun i => nth (N.to_nat (i mod (4 * N.of_nat k))) tbl (0, 0)) 0)
      by (rewrite map_length; lia).
    rewrite (map_nth (fun i => nth (N.to_nat (i mod (4 * N.of_nat k))) tbl (0, 0))). reflexivity. }
  assert (Hx : ix < 4 * N.of_nat k) by (apply N.mod_lt; lia).
  rewrite En, T by assumption. destruct (N.ltb_spec ix (2 * N.of_nat k)); cbn [fst snd].
  - replace (64 * ix) with (64 * N.of_nat (N.to_nat ix)) by lia. rewrite lane64 by assumption. reflexivity.
  - replace (64 * (ix - 2 * N.of_nat k)) with (64 * N.of_nat (N.to_nat (ix - 2 * N.of_nat k))) by lia.
    rewrite lane64 by assumption. reflexivity.
Qed.
(** ** NEON extras *)
Lemma p_rev16 a : reg128 a -> reg128 (of_u16s (vrev32q_u16 (u16s a)))
  /\ fieldwise1 32 4 (fun x => x / 2 ^ 16 + 2 ^ 16 * (x mod 2 ^ 16)) (value (of_u16s (vrev32q_u16 (u16s a)))) (value a).
Proof.
  apply (lanewise1 (fun a => of_u16s (vrev32q_u16 (u16s a)))).
  - intros x Hx. change (2 ^ 32) with M32 in *. change (2 ^ 16) with 65536. lia.
  - intros b Hb. dreg b. cbn [u16s flat_map app vrev32q_u16 of_u16s map]. change (2 ^ 32) with M32 in *. change (2 ^ 16) with 65536.
    rewrite !(N.mod_small (_ / 65536)) by lia. reflexivity.
Qed.
(** Concat(b, a) >> 32n, low 128 bits. *)
Lemma p_ext n a b : (n < 4)%nat -> reg128 a -> reg128 b -> reg128 (vextq_u32 a b n)
  /\ forall i, i < 4 -> field (value (vextq_u32 a b n)) (32 * i) 32 = field (value a + 2 ^ 128 * value b) (32 * (i + N.of_nat n)) 32.
Proof.
  intros Hn Ha Hb.
  assert (Hab : Forall (fun x => x < 2 ^ 32) (a ++ b)) by (apply Forall_app; split; [apply Ha | apply Hb]).
  assert (E : value a + 2 ^ 128 * value b = value (a ++ b)) by (rewrite value_app, (proj1 Ha); reflexivity).
  assert (R : reg128 (vextq_u32 a b n)).
  { clear E. unfold vextq_u32. split.
    - rewrite firstn_length, skipn_length, app_length, (proj1 Ha), (proj1 Hb). lia.
    - rewrite Forall_forall in *. intros x Hx. apply Hab.
      rewrite <- (firstn_skipn n (a ++ b)). apply in_or_app. right.
      rewrite <- (firstn_skipn 4 (skipn n (a ++ b))). apply in_or_app. left. exact Hx. }
  split; [assumption|]. intros i Hi. rewrite E.
  replace (32 * i) with (32 * N.of_nat (N.to_nat i)) by lia.
  replace (32 * (i + N.of_nat n)) with (32 * N.of_nat (N.to_nat i + n)) by lia.
  rewrite (lane32 _ (proj2 R)), (lane32 _ Hab). unfold vextq_u32.
  assert (Hj : (N.to_nat i < 4)%nat) by lia. revert Hj. generalize (N.to_nat i). clear - Ha Hb Hn. intros j Hj.
  dreg a. dreg b.
  do 4 (destruct n as [|n]; [do 4 (destruct j as [|j]; [reflexivity|]); lia|]). lia.
Qed.

Lemma reg2_intro a b : reg128 a -> reg128 b -> reg 2 [a; b].
Proof. intros Ha Hb. split; [reflexivity|]. constructor; [assumption|]. constructor; [assumption | constructor]. Qed.
Lemma reg4_intro a b c d : reg128 a -> reg128 b -> reg128 c -> reg128 d -> reg 4 [a; b; c; d].
Proof.
  intros Ha Hb Hc Hd. split; [reflexivity|]. constructor; [assumption|]. constructor; [assumption|].
  constructor; [assumption|]. constructor; [assumption | constructor].
Qed.

(** ** C54 *)
(** x86, 128 bits. *)
Theorem C54_x86_128 a b : reg128 a -> reg128 b ->
  fieldwise2 32 4 (fun x y => (x + y) mod 2 ^ 32) (value (mm_add_epi32 a b)) (value a) (value b)
  /\ fieldwise2 64 2 (fun x y => (x + y) mod 2 ^ 64) (value (mm_add_epi64 a b)) (value a) (value b)
  /\ fieldwise2 32 4 N.lxor (value (mm_xor a b)) (value a) (value b)
  /\ (forall k, fieldwise1 32 4 (fun x => (x * 2 ^ k) mod 2 ^ 32) (value (mm_slli_epi32 a k)) (value a))
  /\ (forall k, fieldwise1 32 4 (fun x => x / 2 ^ k) (value (mm_srli_epi32 a k)) (value a))
  /\ (forall k, 0 < k < 32 ->
        fieldwise1 32 4 (fun x => (x * 2 ^ k) mod 2 ^ 32 + x / 2 ^ (32 - k)) (value (mm_rol_epi32 k a)) (value a))
  /\ (forall imm i, i < 4 ->
        field (value (mm_shuffle_epi32 a imm)) (32 * i) 32 = field (value a) (32 * field imm (2 * i) 2) 32)
  /\ (forall i, i < 16 -> field (value (mm_shuffle_epi8 a b)) (8 * i) 8
        = if field (value b) (8 * i + 7) 1 =? 1 then 0 else field (value a) (8 * field (value b) (8 * i) 4) 8)
  /\ (forall i, mm_extract_epi32 a i = field (value a) (32 * N.of_nat i) 32)
  /\ mm_cvtsi128_si32 a = field (value a) 0 32
  /\ (forall i, nth i (mm_storeu a) 0 = field (value a) (8 * N.of_nat i) 8).
Proof.
  intros Ha Hb. split; [apply p_add32; assumption|]. split; [apply p_add64; assumption|]. split; [apply p_xor; assumption|].
  split; [intros; apply p_slli; assumption|]. split; [intros; apply p_srli; assumption|].
  split; [intros; apply p_rol; assumption|]. split; [intros imm; apply p_shuffle32; assumption|].
  split; [apply p_shuffle8; assumption|]. split; [intros i; symmetry; apply lane32, Ha|].
  split; [symmetry; apply (lane32 a (proj2 Ha) 0)|]. intros i. symmetry. apply lane8, Ha.
Qed.
Print Assumptions C54_x86_128.
Theorem C54_x86_set e3 e2 e1 e0 : e3 < 2 ^ 32 -> e2 < 2 ^ 32 -> e1 < 2 ^ 32 -> e0 < 2 ^ 32 ->
  value (mm_set_epi32 e3 e2 e1 e0) = e0 + 2 ^ 32 * e1 + 2 ^ 64 * e2 + 2 ^ 96 * e3
  /\ (forall q1 q0, q1 < 2 ^ 64 -> q0 < 2 ^ 64 -> value (mm_set_epi64x q1 q0) = q0 + 2 ^ 64 * q1)
  /\ (forall f7 f6 f5 f4, f7 < 2 ^ 32 -> f6 < 2 ^ 32 -> f5 < 2 ^ 32 -> f4 < 2 ^ 32 ->
        value2 (mm256_set_epi32 f7 f6 f5 f4 e3 e2 e1 e0)
        = e0 + 2 ^ 32 * e1 + 2 ^ 64 * e2 + 2 ^ 96 * e3
          + 2 ^ 128 * (f4 + 2 ^ 32 * f5 + 2 ^ 64 * f6 + 2 ^ 96 * f7))
  /\ (forall q3 q2 q1 q0, q3 < 2 ^ 64 -> q2 < 2 ^ 64 -> q1 < 2 ^ 64 -> q0 < 2 ^ 64 ->
        value2 (mm256_set_epi64x q3 q2 q1 q0) = q0 + 2 ^ 64 * q1 + 2 ^ 128 * (q2 + 2 ^ 64 * q3)).
Proof.
  intros H3 H2 H1 H0. split; [apply p_set32; assumption|]. split; [intros; apply p_set64; assumption|]. split.
  - intros f7 f6 f5 f4 ? ? ? ?. unfold mm256_set_epi32. rewrite value2_cons by (apply p_set32; assumption).
    unfold value2. cbn [concat]. rewrite app_nil_r. destruct (p_set32 e3 e2 e1 e0) as [_ ->]; try assumption.
    destruct (p_set32 f7 f6 f5 f4) as [_ ->]; try assumption. reflexivity.
  - intros q3 q2 q1 q0 ? ? ? ?. unfold mm256_set_epi64x. rewrite value2_cons by (apply p_set64; assumption).
    unfold value2. cbn [concat]. rewrite app_nil_r. destruct (p_set64 q1 q0) as [_ ->]; try assumption.
    destruct (p_set64 q3 q2) as [_ ->]; try assumption. reflexivity.
Qed.
Print Assumptions C54_x86_set.
(** The 512-bit constants: element [i] of the argument list, counted from the right. *)
Theorem C54_x86_set512 e0 e1 e2 e3 e4 e5 e6 e7 e8 e9 e10 e11 e12 e13 e14 e15 :
  let es := [e0; e1; e2; e3; e4; e5; e6; e7; e8; e9; e10; e11; e12; e13; e14; e15] in
  (Forall (fun e => e < 2 ^ 32) es -> forall i, (i < 16)%nat ->
     field (value2 (mm512_set_epi32 e15 e14 e13 e12 e11 e10 e9 e8 e7 e6 e5 e4 e3 e2 e1 e0)) (32 * N.of_nat i) 32 = nth i es 0)
  /\ (Forall (fun e => e < 2 ^ 64) (firstn 8 es) -> forall i, (i < 8)%nat ->
     field (value2 (mm512_set_epi64 e7 e6 e5 e4 e3 e2 e1 e0)) (64 * N.of_nat i) 64 = nth i es 0).
Proof.
  cbv zeta. split.
  - intros H i Hi. unfold value2. rewrite lane32.
    + repeat match goal with H : Forall _ (_ :: _) |- _ => inversion_clear H end. change (2 ^ 32) with M32 in *.
      do 16 (destruct i as [|i]; [cbn [mm512_set_epi32 mm_set_epi32 concat app nth]; apply N.mod_small; assumption|]). lia.
    + cbn [mm512_set_epi32 mm_set_epi32 concat app]. repeat constructor; apply N.mod_lt; discriminate.
  - intros H i Hi. unfold value2. rewrite lane64.
    + cbn [firstn] in H. repeat match goal with H : Forall _ (_ :: _) |- _ => inversion_clear H end.
      change (2 ^ 32) with M32 in *. change (2 ^ 64) with M64 in *.
      do 8 (destruct i as [|i]; [cbn [mm512_set_epi64 mm_set_epi64x concat app nth Nat.mul Nat.add]; lia|]). lia.
    + cbn [mm512_set_epi64 mm_set_epi64x concat app]. repeat constructor; apply N.mod_lt; discriminate.
Qed.
Print Assumptions C54_x86_set512.

(** x86, 256 and 512 bits: as the 128-bit operations, in every field of the wide register;
    the shuffles stay inside their 128-bit group. *)
Theorem C54_x86_256 a b : reg 2 a -> reg 2 b ->
  fieldwise2 32 8 (fun x y => (x + y) mod 2 ^ 32) (value2 (mm256_add_epi32 a b)) (value2 a) (value2 b)
  /\ fieldwise2 64 4 (fun x y => (x + y) mod 2 ^ 64) (value2 (mm256_add_epi64 a b)) (value2 a) (value2 b)
  /\ fieldwise2 32 8 N.lxor (value2 (mm256_xor a b)) (value2 a) (value2 b)
  /\ (forall k, fieldwise1 32 8 (fun x => (x * 2 ^ k) mod 2 ^ 32) (value2 (mm256_slli_epi32 a k)) (value2 a))
  /\ (forall k, fieldwise1 32 8 (fun x => x / 2 ^ k) (value2 (mm256_srli_epi32 a k)) (value2 a))
  /\ (forall k, 0 < k < 32 ->
        fieldwise1 32 8 (fun x => (x * 2 ^ k) mod 2 ^ 32 + x / 2 ^ (32 - k)) (value2 (mm256_rol_epi32 k a)) (value2 a))
  /\ (forall imm g i, (g < 2)%nat -> i < 4 ->
        field (field (value2 (mm256_shuffle_epi32 a imm)) (128 * N.of_nat g) 128) (32 * i) 32
        = field (field (value2 a) (128 * N.of_nat g) 128) (32 * field imm (2 * i) 2) 32)
  /\ (forall g i, (g < 2)%nat -> i < 16 ->
        let a' := field (value2 a) (128 * N.of_nat g) 128 in let b' := field (value2 b) (128 * N.of_nat g) 128 in
        field (field (value2 (mm256_shuffle_epi8 a b)) (128 * N.of_nat g) 128) (8 * i) 8
        = if field b' (8 * i + 7) 1 =? 1 then 0 else field a' (8 * field b' (8 * i) 4) 8)
  /\ (forall idx i, length idx = 4%nat -> i < 4 ->
        let ix := nth (N.to_nat i) idx 0 mod 8 in
        field (value2 (mm256_permutex2var_epi64 a idx b)) (64 * i) 64
        = if ix <? 4 then field (value2 a) (64 * ix) 64 else field (value2 b) (64 * (ix - 4)) 64)
  /\ (forall i, mm256_extract_epi32 a i = field (value2 a) (32 * N.of_nat i) 32)
  /\ (forall x g, reg128 x -> (g < 2)%nat -> field (value2 (mm256_broadcast x)) (128 * N.of_nat g) 128 = value x).
Proof.
  intros Ha Hb.
  split; [apply (wide2 mm_add_epi32 _ 32 4 2 eq_refl p_add32); assumption|].
  split; [apply (wide2 mm_add_epi64 _ 64 2 2 eq_refl p_add64); assumption|].
  split; [apply (wide2 mm_xor _ 32 4 2 eq_refl p_xor); assumption|].
  split; [intros k; apply (wide1 (fun g => mm_slli_epi32 g k) _ 32 4 2 eq_refl (p_slli k)); assumption|].
  split; [intros k; apply (wide1 (fun g => mm_srli_epi32 g k) _ 32 4 2 eq_refl (p_srli k)); assumption|].
  split; [intros k Hk; apply (wide1 (mm_rol_epi32 k) _ 32 4 2 eq_refl (fun a => p_rol k a Hk)); assumption|].
  destruct Ha as [La Wa], Hb as [Lb Wb].
  destruct a as [|a0 [|a1 [|]]]; try discriminate La. destruct b as [|b0 [|b1 [|]]]; try discriminate Lb.
  inversion Wa as [|? ? Wa0 Wa']; subst. inversion Wa' as [|? ? Wa1 _]; subst.
  inversion Wb as [|? ? Wb0 Wb']; subst. inversion Wb' as [|? ? Wb1 _]; subst.
  split.
  { intros imm g i Hg Hi. destruct (p_shuffle32 imm a0 Wa0) as [R0 F0], (p_shuffle32 imm a1 Wa1) as [R1 F1].
    rewrite (group128 _ 2) by (try assumption; apply reg2_intro; assumption).
    rewrite (group128 _ 2) by (try assumption; apply reg2_intro; assumption).
    unfold mm256_shuffle_epi32. cbn [map]. do 2 (destruct g as [|g]; [cbn [nth]; auto|]). lia. }
  split.
  { intros g i Hg Hi. cbv zeta. destruct (p_shuffle8 a0 b0 Wa0 Wb0) as [R0 F0], (p_shuffle8 a1 b1 Wa1 Wb1) as [R1 F1].
    rewrite !(group128 _ 2) by (try assumption; apply reg2_intro; assumption).
    unfold mm256_shuffle_epi8. cbn [map2]. do 2 (destruct g as [|g]; [cbn [nth]; auto|]). lia. }
  split.
  { intros idx i Hl Hi. cbv zeta.
    destruct (p_permutex2var 3 2 [a0; a1] idx [b0; b1]) as [_ F]; try assumption; try reflexivity;
      try (apply reg2_intro; assumption).
    exact (F i Hi). }
  split.
  { intros i. unfold mm256_extract_epi32, get, value2. symmetry. apply lane32.
    apply (reg_lanes 2). split; [reflexivity | assumption]. }
  intros x g Hx Hg. rewrite (group128 _ 2) by (try assumption; apply reg2_intro; assumption).
  do 2 (destruct g as [|g]; [reflexivity|]). lia.
Qed.
Print Assumptions C54_x86_256.
Theorem C54_x86_512 a b : reg 4 a -> reg 4 b ->
  fieldwise2 32 16 (fun x y => (x + y) mod 2 ^ 32) (value2 (mm512_add_epi32 a b)) (value2 a) (value2 b)
  /\ fieldwise2 64 8 (fun x y => (x + y) mod 2 ^ 64) (value2 (mm512_add_epi64 a b)) (value2 a) (value2 b)
  /\ fieldwise2 32 16 N.lxor (value2 (mm512_xor a b)) (value2 a) (value2 b)
  /\ (forall k, 0 < k < 32 ->
        fieldwise1 32 16 (fun x => (x * 2 ^ k) mod 2 ^ 32 + x / 2 ^ (32 - k)) (value2 (mm512_rol_epi32 k a)) (value2 a))
  /\ (forall imm g i, (g < 4)%nat -> i < 4 ->
        field (field (value2 (mm512_shuffle_epi32 a imm)) (128 * N.of_nat g) 128) (32 * i) 32
        = field (field (value2 a) (128 * N.of_nat g) 128) (32 * field imm (2 * i) 2) 32)
  /\ (forall imm i, i < 4 ->
        field (value2 (mm512_shuffle_i32x4 imm a b)) (128 * i) 128
        = field (value2 (if i <? 2 then a else b)) (128 * field imm (2 * i) 2) 128)
  /\ (forall idx i, length idx = 8%nat -> i < 8 ->
        let ix := nth (N.to_nat i) idx 0 mod 16 in
        field (value2 (mm512_permutex2var_epi64 a idx b)) (64 * i) 64
        = if ix <? 8 then field (value2 a) (64 * ix) 64 else field (value2 b) (64 * (ix - 8)) 64)
  /\ (forall x g, reg128 x -> (g < 4)%nat -> field (value2 (mm512_broadcast x)) (128 * N.of_nat g) 128 = value x).
Proof.
  intros Ha Hb.
  split; [apply (wide2 mm_add_epi32 _ 32 4 4 eq_refl p_add32); assumption|].
  split; [apply (wide2 mm_add_epi64 _ 64 2 4 eq_refl p_add64); assumption|].
  split; [apply (wide2 mm_xor _ 32 4 4 eq_refl p_xor); assumption|].
  split; [intros k Hk; apply (wide1 (mm_rol_epi32 k) _ 32 4 4 eq_refl (fun a => p_rol k a Hk)); assumption|].
  split.
  { intros imm g i Hg Hi.
    assert (R : reg 4 (mm512_shuffle_epi32 a imm)).
    { destruct Ha as [L W]. split; [unfold mm512_shuffle_epi32; rewrite map_length; assumption|].
      unfold mm512_shuffle_epi32. rewrite Forall_forall in *. intros x Hx. apply in_map_iff in Hx. destruct Hx as [y [<- Hy]].
      apply p_shuffle32. apply W. assumption. }
    rewrite !(group128 _ 4) by assumption. unfold mm512_shuffle_epi32.
    assert (Hn : reg128 (nth g a [])).
    { destruct Ha as [L W]. rewrite Forall_forall in W. apply W, nth_In. lia. }
    rewrite nth_indep with (d' := mm_shuffle_epi32 [] imm) by (rewrite map_length, (proj1 Ha); assumption).
    rewrite (map_nth (fun x => mm_shuffle_epi32 x imm)). apply p_shuffle32; assumption. }
  split; [intros imm; apply p_shuffle_i32x4; assumption|].
  split.
  { intros idx i Hl Hi. cbv zeta.
    destruct (p_permutex2var 4 4 a idx b) as [_ F]; try assumption; try reflexivity. exact (F i Hi). }
  intros x g Hx Hg. rewrite (group128 _ 4) by (try assumption; apply reg4_intro; assumption).
  do 4 (destruct g as [|g]; [reflexivity|]). lia.
Qed.
Print Assumptions C54_x86_512.
(** NEON. *)
Theorem C54_neon a b : reg128 a -> reg128 b ->
  fieldwise2 32 4 (fun x y => (x + y) mod 2 ^ 32) (value (vaddq_u32 a b)) (value a) (value b)
  /\ fieldwise2 64 2 (fun x y => (x + y) mod 2 ^ 64) (value (vaddq_u64 a b)) (value a) (value b)
  /\ fieldwise2 32 4 N.lxor (value (veorq_u32 a b)) (value a) (value b)
  /\ fieldwise2 32 4 N.lor (value (vorrq_u32 a b)) (value a) (value b)
  /\ (forall k, fieldwise1 32 4 (fun x => (x * 2 ^ k) mod 2 ^ 32) (value (vshlq_n_u32 a k)) (value a))
  /\ (forall k, fieldwise1 32 4 (fun x => x / 2 ^ k) (value (vshrq_n_u32 a k)) (value a))
  /\ fieldwise1 32 4 (fun x => x / 2 ^ 16 + 2 ^ 16 * (x mod 2 ^ 16)) (value (of_u16s (vrev32q_u16 (u16s a)))) (value a)
  /\ (forall n i, (n < 4)%nat -> i < 4 ->
        field (value (vextq_u32 a b n)) (32 * i) 32 = field (value a + 2 ^ 128 * value b) (32 * (i + N.of_nat n)) 32)
  /\ (forall idx i, (i < length idx)%nat ->
        nth i (vqtbl1q_u8 (bytes_of_words a) idx) 0
        = if nth i idx 0 <? 16 then field (value a) (8 * nth i idx 0) 8 else 0)
  /\ (forall i, vgetq_lane_u32 a i = field (value a) (32 * N.of_nat i) 32)
  /\ (forall i, nth i (vst1q_u8 a) 0 = field (value a) (8 * N.of_nat i) 8).
Proof.
  intros Ha Hb. split; [apply p_add32; assumption|]. split; [apply p_add64; assumption|].
  split; [apply p_xor; assumption|]. split; [apply p_or; assumption|].
  split; [intros; apply p_slli; assumption|]. split; [intros; apply p_srli; assumption|].
  split; [apply p_rev16; assumption|]. split; [intros; apply p_ext; assumption|].
  split.
  { intros idx i Hi. unfold vqtbl1q_u8.
    rewrite nth_indep with (d' := (fun i => if i <? 16 then get (bytes_of_words a) (N.to_nat i) else 0) 0)
      by (rewrite map_length; assumption).
    rewrite (map_nth (fun i => if i <? 16 then get (bytes_of_words a) (N.to_nat i) else 0)).
    destruct (_ <? 16); [|reflexivity]. unfold get. rewrite <- lane8 by apply Ha. f_equal. lia. }
  split; [intros i; symmetry; apply lane32, Ha|]. intros i. symmetry. apply lane8, Ha.
Qed.
Print Assumptions C54_neon.

Example C54_satisfiable : let a := [0xffffffff; 1; 0x80000000; 7] in let b := [1; 0xfffffffe; 0x80000000; 0] in
  reg128 a /\ reg128 b /\ reg 2 [a; b] /\ reg 4 [a; b; b; a]
  /\ value a = 0x000000078000000000000001ffffffff
  /\ value (mm_add_epi64 a b) = 2 ^ 99
  /\ value2 [a; b] = 0x0000000080000000fffffffe00000001000000078000000000000001ffffffff.
Proof.
  cbv zeta. assert (R1 : reg128 [0xffffffff; 1; 0x80000000; 7]) by (split; [reflexivity | repeat constructor]).
  assert (R2 : reg128 [1; 0xfffffffe; 0x80000000; 0]) by (split; [reflexivity | repeat constructor]).
  split; [exact R1|]. split; [exact R2|]. split; [apply reg2_intro; assumption|]. split; [apply reg4_intro; assumption|].
  vm_compute. auto.
Qed.
