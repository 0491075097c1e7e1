(** What RC4 and HC-256 leak: proofs. *)
From Verif Require Import Word WordLemmas Res Leakage LeakageRes LeakageResProofs Rc4 SpecRC4 Rc4Proofs
  SpecHC256 Hc256 Hc256Proofs Hc256Seq PropCommon PropertiesHc256 PropertiesHc256Inj.
From Coq Require Import ZArith Lia ZifyBool ZifyNat ZifyN.
Ltac Zify.zify_post_hook ::= Z.div_mod_to_equations.

Lemma snd_bind {A B} (m : LR A) (f : A -> LR B) x : fst m = Ok x -> snd (rbind m f) = (snd m ++ snd (f x))%list.
Proof. destruct m as [r t]. cbn [fst]. intros ->. unfold rbind. destruct (f x). reflexivity. Qed.

(** ** HC-256 *)
(** The leakage of one step, from the tables seen as functions. *)
Definition ovf (ck : bool) : list event := if ck then [Br false] else [].
Definition h_leak (ck : bool) (x : N) : list event :=
  (Rd (N.to_nat (hc_byte x 0)) :: ovf ck ++ Rd (N.to_nat (256 + hc_byte x 1)) :: ovf ck
   ++ Rd (N.to_nat (512 + hc_byte x 2)) :: ovf ck ++ [Rd (N.to_nat (768 + hc_byte x 3))])%list.
Definition half_leak (ck : bool) (j : N) (T : N -> N) : list event :=
  ([Rd (N.to_nat j); Rd (N.to_nat (hc_sub j 10)); Rd (N.to_nat (hc_sub j 3)); Rd (N.to_nat (hc_sub j 1023));
    Rd (N.to_nat (N.lxor (T (hc_sub j 3)) (T (hc_sub j 1023)) mod 1024)); Wr (N.to_nat j); Rd (N.to_nat (hc_sub j 12))]
   ++ h_leak ck (T (hc_sub j 12)) ++ [Rd (N.to_nat j)])%list.
Definition step_leak (ck : bool) (i : N) (t : (N -> N) * (N -> N)) : list event :=
  (ovf ck ++ Br (i mod 2048 <? 1024) :: half_leak ck (i mod 1024) (if i mod 2048 <? 1024 then fst t else snd t))%list.

Lemma r_g_leak l F x y : tab l F -> snd (r_g l x y) = [Rd (N.to_nat (N.lxor x y mod 1024))].
Proof.
  intros H. unfold r_g, TABLE_MASK. rewrite land_1023.
  erewrite snd_bind; [|apply (tab_idx l F); [exact H | apply N.mod_lt; discriminate]]. reflexivity.
Qed.
Lemma r_h_leak ck l F x : tab l F -> snd (r_h ck l x) = h_leak ck x.
Proof.
  intros H. unfold r_h. rewrite !land_255, !N.shiftr_div_pow2.
  replace (x mod 256) with (hc_byte x 0) by (unfold hc_byte; rewrite N.pow_0_r, N.div_1_r; reflexivity).
  change (x / 2 ^ 8 mod 256) with (hc_byte x 1).
  change (x / 2 ^ 16 mod 256) with (hc_byte x 2).
  change (x / 2 ^ 24 mod 256) with (hc_byte x 3).
  pose proof (hc_byte_lt x 0). pose proof (hc_byte_lt x 1). pose proof (hc_byte_lt x 2). pose proof (hc_byte_lt x 3).
  assert (A : forall a b, a + b < 1024 -> snd (r_add ck M32 a b) = ovf ck).
  { intros a b Hab. unfold r_add, leak, ovf. cbn [snd]. destruct ck; [|reflexivity].
    replace (M32 <=? a + b) with false; [reflexivity|]. symmetry. apply N.leb_gt. lia. }
  erewrite snd_bind; [|apply (tab_idx l F); [exact H | lia]].
  erewrite snd_bind; [|apply add_ck_ok; lia]. erewrite snd_bind; [|apply (tab_idx l F); [exact H | lia]].
  erewrite snd_bind; [|apply add_ck_ok; lia]. erewrite snd_bind; [|apply (tab_idx l F); [exact H | lia]].
  erewrite snd_bind; [|apply add_ck_ok; lia]. erewrite snd_bind; [|apply (tab_idx l F); [exact H | lia]].
  rewrite !A by lia. unfold r_idx, leak, rret, h_leak. cbn [snd]. rewrite !app_nil_r. reflexivity.
Qed.
Lemma r_half_leak ck usz j own F other G : usize_ok usz -> j < 1024 -> tab own F -> tab other G ->
  snd (r_half ck usz j own other) = half_leak ck j F.
Proof.
  intros Hu Hj HP HQ. unfold r_half. cbv zeta. rewrite !(wsub_spec usz j) by (try assumption; lia).
  pose proof (hc_sub_lt j 3). pose proof (hc_sub_lt j 10). pose proof (hc_sub_lt j 12). pose proof (hc_sub_lt j 1023).
  do 4 (erewrite snd_bind; [|apply (tab_idx own F); assumption]).
  erewrite snd_bind; [|rewrite r_g_value; apply (g_ok other G); [exact HQ | apply (tab_lt _ _ _ HP); assumption | apply (tab_lt _ _ _ HP); assumption]].
  rewrite (r_g_leak other G) by exact HQ.
  set (v := add32 _ _). destruct (tab_upd own F j v HP Hj) as [E HP']; [apply hc_add_lt|].
  erewrite snd_bind; [|exact E]. erewrite snd_bind; [|apply (tab_idx _ _ _ HP'); assumption].
  erewrite snd_bind; [|rewrite r_h_value; apply (h_ok _ other G), HQ]. rewrite (r_h_leak ck other G) by exact HQ.
  erewrite snd_bind; [|apply (tab_idx _ _ _ HP'); assumption].
  unfold r_idx, r_set, leak, rret, half_leak. cbn [snd app].
  assert (N12 : (hc_sub j 12 =? j) = false) by (unfold hc_sub; lia). unfold hc_upd at 1. rewrite N12. reflexivity.
Qed.
Lemma r_gen_word_leak ck usz s t i : usize_ok usz -> hrel s t i -> snd (r_gen_word ck usz s) = step_leak ck i t.
Proof.
  intros Hu (HP & HQ & Hi). destruct t as [P Q]. cbn [fst snd] in *. unfold r_gen_word, step_leak. cbv zeta.
  assert (Ej : N.land (h_idx s) TABLE_MASK = i mod 1024).
  { unfold TABLE_MASK. rewrite land_1023, Hi. lia. }
  rewrite Ej. assert (Hj : i mod 1024 < 1024) by (apply N.mod_lt; discriminate).
  erewrite snd_bind; [|apply add_ck_ok; rewrite Hi; lia]. erewrite snd_bind; [|reflexivity].
  rewrite Hi. unfold r_branch, r_add, leak. cbn [snd].
  replace (M32 <=? i mod 2048 + 1) with false by (symmetry; apply N.leb_gt; lia). fold (ovf ck). cbn [app].
  f_equal. f_equal.
  assert (V : forall a F b G, tab a F -> tab b G -> exists w a', fst (r_half ck usz (i mod 1024) a b) = Ok (w, a')).
  { intros a F b G HA HB. unfold r_half. cbv zeta. rewrite !(wsub_spec usz (i mod 1024)) by (try assumption; lia).
    set (j := i mod 1024) in *. clearbody j.
    pose proof (hc_sub_lt j 3). pose proof (hc_sub_lt j 10). pose proof (hc_sub_lt j 12). pose proof (hc_sub_lt j 1023).
    rewrite fst_rbind. cbn [r_idx leak fst]. rewrite (tab_idx a F) by assumption. cbn [bind].
    rewrite fst_rbind. cbn [r_idx leak fst]. rewrite (tab_idx a F) by assumption. cbn [bind].
    rewrite fst_rbind. cbn [r_idx leak fst]. rewrite (tab_idx a F) by assumption. cbn [bind].
    rewrite fst_rbind. cbn [r_idx leak fst]. rewrite (tab_idx a F) by assumption. cbn [bind].
    rewrite fst_rbind, r_g_value, (g_ok b G) by (try apply (tab_lt a); assumption). cbn [bind].
    set (v := add32 _ _). destruct (tab_upd a F j v HA Hj) as [E HA']; [apply hc_add_lt|].
    rewrite fst_rbind. cbn [r_set leak fst]. rewrite E. cbn [bind].
    rewrite fst_rbind. cbn [r_idx leak fst]. rewrite (tab_idx _ _ _ HA') by assumption. cbn [bind].
    rewrite fst_rbind, r_h_value, (h_ok ck b G) by assumption. cbn [bind].
    rewrite fst_rbind. cbn [r_idx leak fst]. rewrite (tab_idx _ _ _ HA') by assumption. cbn [bind].
    do 2 eexists. reflexivity. }
  destruct (i mod 2048 <? 1024).
  - destruct (V _ _ _ _ HP HQ) as (w & a & E). erewrite snd_bind; [|exact E]. unfold rret. cbn [snd]. rewrite app_nil_r.
    apply (r_half_leak ck usz _ _ P _ Q); assumption.
  - destruct (V _ _ _ _ HQ HP) as (w & a & E). erewrite snd_bind; [|exact E]. unfold rret. cbn [snd]. rewrite app_nil_r.
    apply (r_half_leak ck usz _ _ Q _ P); assumption.
Qed.

(** The leakage of a step gives away the word 12 places back, and ten bits of another sum. *)
Lemma bytes4_eq x y : x < M32 -> y < M32 -> hc_byte x 0 = hc_byte y 0 -> hc_byte x 1 = hc_byte y 1 ->
  hc_byte x 2 = hc_byte y 2 -> hc_byte x 3 = hc_byte y 3 -> x = y.
Proof.
  unfold hc_byte. change (256 ^ 0) with 1. change (256 ^ 1) with 256. change (256 ^ 2) with (256 * 256). change (256 ^ 3) with (256 * 256 * 256).
  rewrite <- !N.div_div, !N.div_1_r by discriminate. intros Hx Hy E0 E1 E2 E3.
  assert (S : forall a b, a mod 256 = b mod 256 -> a / 256 = b / 256 -> a = b) by (intros a b Ha Hb; rewrite (N.div_mod' a 256), (N.div_mod' b 256), Ha, Hb; reflexivity).
  apply S; [exact E0|]. apply S; [exact E1|]. apply S; [exact E2|].
  assert (T : forall a, a < M32 -> a / 256 / 256 / 256 < 256) by (intros a Ha; repeat (apply N.div_lt_upper_bound; [discriminate|]); exact Ha).
  apply T in Hx, Hy. rewrite !N.mod_small in E3 by assumption. exact E3.
Qed.
Lemma h_leak_inj ck x y r r' : x < M32 -> y < M32 -> (h_leak ck x ++ r = h_leak ck y ++ r')%list -> x = y.
Proof.
  intros Hx Hy E. unfold h_leak in E. revert E.
  generalize (hc_byte_lt x 0), (hc_byte_lt x 1), (hc_byte_lt x 2), (hc_byte_lt x 3).
  generalize (hc_byte_lt y 0), (hc_byte_lt y 1), (hc_byte_lt y 2), (hc_byte_lt y 3). intros _ _ _ _ _ _ _ _ E.
  apply bytes4_eq; try assumption; revert E;
    generalize (hc_byte x 0), (hc_byte x 1), (hc_byte x 2), (hc_byte x 3), (hc_byte y 0), (hc_byte y 1), (hc_byte y 2), (hc_byte y 3);
    intros a b c d a' b' c' d' E;
    assert (X : forall t0 t1 t2 t3 u0 u1 u2 u3 : nat,
      ((Rd t0 :: ovf ck ++ Rd t1 :: ovf ck ++ Rd t2 :: ovf ck ++ [Rd t3]) ++ r
       = (Rd u0 :: ovf ck ++ Rd u1 :: ovf ck ++ Rd u2 :: ovf ck ++ [Rd u3]) ++ r')%list ->
      t0 = u0 /\ t1 = u1 /\ t2 = u2 /\ t3 = u3)
      by (intros; destruct ck; cbn [ovf app] in *; repeat match goal with H : _ :: _ = _ :: _ |- _ => injection H as ? ? end; auto);
    apply X in E; lia.
Qed.
Lemma half_leak_inj ck j T T' r r' : j < 1024 -> T (hc_sub j 12) < M32 -> T' (hc_sub j 12) < M32 ->
  (half_leak ck j T ++ r = half_leak ck j T' ++ r')%list ->
  T (hc_sub j 12) = T' (hc_sub j 12)
  /\ N.lxor (T (hc_sub j 3)) (T (hc_sub j 1023)) mod 1024 = N.lxor (T' (hc_sub j 3)) (T' (hc_sub j 1023)) mod 1024.
Proof.
  intros Hj HT HT' E. unfold half_leak in E. rewrite <- !app_assoc in E. cbn [app] in E.
  assert (X : forall a b c d e e' f g (k k' : list event), Rd a :: Rd b :: Rd c :: Rd d :: Rd e :: Wr f :: Rd g :: k
     = Rd a :: Rd b :: Rd c :: Rd d :: Rd e' :: Wr f :: Rd g :: k' -> e = e' /\ k = k').
  { intros a b c d e e' f g k k' H. injection H as H1 H2. auto. }
  apply X in E as [E1 E2]. split; [apply (h_leak_inj ck _ _ _ _ HT HT' E2)|]. lia.
Qed.
Lemma step_leak_inj ck i t t' r r' : bounded t -> bounded t' -> (step_leak ck i t ++ r = step_leak ck i t' ++ r')%list ->
  if i mod 2048 <? 1024 then fst t (hc_sub (i mod 1024) 12) = fst t' (hc_sub (i mod 1024) 12)
  else snd t (hc_sub (i mod 1024) 12) = snd t' (hc_sub (i mod 1024) 12).
Proof.
  intros B B' E. unfold step_leak in E. rewrite <- !app_assoc in E. apply app_inv_head in E. cbn [app] in E.
  assert (Hj : i mod 1024 < 1024) by (apply N.mod_lt; discriminate).
  destruct (B (hc_sub (i mod 1024) 12) (hc_sub_lt _ _)), (B' (hc_sub (i mod 1024) 12) (hc_sub_lt _ _)).
  assert (X : forall (b : bool) (k k' : list event), Br b :: k = Br b :: k' -> k = k') by (intros ? ? ? H'; now injection H').
  apply X in E. destruct (i mod 2048 <? 1024); apply half_leak_inj in E; try assumption; apply E.
Qed.
Lemma step_leak_length ck i t t' : length (step_leak ck i t) = length (step_leak ck i t').
Proof. unfold step_leak, half_leak, h_leak. destruct ck; reflexivity. Qed.
Lemma app_eq_length {A} (a b c d : list A) : length a = length b -> (a ++ c = b ++ d)%list -> a = b /\ c = d.
Proof.
  revert b; induction a as [|x a IH]; intros [|y b] L E; try discriminate; [auto|].
  cbn [app] in E. injection E as <- E. injection L as L. destruct (IH b L E) as [-> ->]. auto.
Qed.
(** Whole runs. *)
Lemma hc_write_leak ck usz k t : usize_ok usz -> forall n s, hrel s (hc_run t n) (N.of_nat n) ->
  snd (r_hc_write ck usz k s)
  = (flat_map (fun i => Br true :: step_leak ck (N.of_nat i) (hc_run t i)) (seq n k) ++ [Br false])%list.
Proof.
  intros Hu. induction k as [|k IH]; intros n s H; [reflexivity|]. cbn [r_hc_write seq flat_map].
  destruct (gen_word_ok ck usz s _ _ Hu H) as (s1 & E1 & H1).
  erewrite snd_bind; [|reflexivity]. erewrite snd_bind; [|rewrite r_gen_word_value; exact E1].
  destruct (hc_write_ok ck usz k t Hu (S n) s1) as (s2 & E2 & H2).
  { cbn [hc_run]. replace (N.of_nat (S n)) with (N.of_nat n + 1) by lia. exact H1. }
  erewrite snd_bind; [|rewrite r_hc_write_value; exact E2]. rewrite (IH (S n) s1).
  2:{ cbn [hc_run]. replace (N.of_nat (S n)) with (N.of_nat n + 1) by lia. exact H1. }
  rewrite (r_gen_word_leak ck usz s _ _ Hu H). unfold leak, rret. cbn [snd]. rewrite app_nil_r, <- app_assoc. reflexivity.
Qed.
Lemma flat_leak_inj ck t t' k n : (flat_map (fun i => Br true :: step_leak ck (N.of_nat i) (hc_run t i)) (seq n k) ++ [Br false]
   = flat_map (fun i => Br true :: step_leak ck (N.of_nat i) (hc_run t' i)) (seq n k) ++ [Br false])%list ->
  forall i, (n <= i < n + k)%nat -> step_leak ck (N.of_nat i) (hc_run t i) = step_leak ck (N.of_nat i) (hc_run t' i).
Proof.
  revert n. induction k as [|k IH]; intros n E i Hi; [lia|]. cbn [seq flat_map] in E. rewrite <- !app_assoc in E.
  apply app_eq_length in E as [E1 E2]; [|cbn [List.length]; f_equal; apply step_leak_length].
  destruct (Nat.eq_dec i n) as [->|Hne]; [|apply (IH (S n) E2); lia].
  apply (f_equal (@tl event)) in E1. exact E1.
Qed.
(** 3084 steps give away both tables. *)
Lemma run_leak_agree ck t t' : bounded t -> bounded t' ->
  (forall i, i < 3084 -> step_leak ck i (hc_run t (N.to_nat i)) = step_leak ck i (hc_run t' (N.to_nat i))) -> agree t t'.
Proof.
  intros B B' E. apply (run_back (N.to_nat 2048)); try assumption.
  assert (K : forall i, i < 3084 ->
    if i mod 2048 <? 1024 then fst (hc_run t (N.to_nat i)) (hc_sub (i mod 1024) 12) = fst (hc_run t' (N.to_nat i)) (hc_sub (i mod 1024) 12)
    else snd (hc_run t (N.to_nat i)) (hc_sub (i mod 1024) 12) = snd (hc_run t' (N.to_nat i)) (hc_sub (i mod 1024) 12)).
  { intros i Hi. apply (step_leak_inj ck i _ _ [] []); [apply bounded_run, B | apply bounded_run, B'|]. now rewrite (E i Hi). }
  clear E. intros x Hx. rewrite !PT_seq, !QT_seq by exact Hx.
  replace (1024 * ((2048 + 2047 - x) / 2048) + x) with (1024 + x) by lia.
  replace (1024 * ((2048 + 1023 - x) / 2048) + x) with (1024 + x) by lia.
  split.
  - destruct (N.ltb_spec x 1012) as [H|H].
    + specialize (K (x + 12) ltac:(lia)). replace ((x + 12) mod 2048 <? 1024) with true in K by (symmetry; apply N.ltb_lt; lia).
      replace (hc_sub ((x + 12) mod 1024) 12) with x in K by (unfold hc_sub; lia). rewrite !PT_seq in K by exact Hx.
      replace (1024 * ((x + 12 + 2047 - x) / 2048) + x) with (1024 + x) in K by lia. exact K.
    + specialize (K (x + 1036) ltac:(lia)). replace ((x + 1036) mod 2048 <? 1024) with true in K by (symmetry; apply N.ltb_lt; lia).
      replace (hc_sub ((x + 1036) mod 1024) 12) with x in K by (unfold hc_sub; lia). rewrite !PT_seq in K by exact Hx.
      replace (1024 * ((x + 1036 + 2047 - x) / 2048) + x) with (1024 + x) in K by lia. exact K.
  - destruct (N.ltb_spec x 1012) as [H|H].
    + specialize (K (x + 1036) ltac:(lia)). replace ((x + 1036) mod 2048 <? 1024) with false in K by (symmetry; apply N.ltb_ge; lia).
      replace (hc_sub ((x + 1036) mod 1024) 12) with x in K by (unfold hc_sub; lia). rewrite !QT_seq in K by exact Hx.
      replace (1024 * ((x + 1036 + 1023 - x) / 2048) + x) with (1024 + x) in K by lia. exact K.
    + specialize (K (x + 2060) ltac:(lia)). replace ((x + 2060) mod 2048 <? 1024) with false in K by (symmetry; apply N.ltb_ge; lia).
      replace (hc_sub ((x + 2060) mod 1024) 12) with x in K by (unfold hc_sub; lia). rewrite !QT_seq in K by exact Hx.
      replace (1024 * ((x + 2060 + 1023 - x) / 2048) + x) with (1024 + x) in K by lia. exact K.
Qed.
(** States whose run starts at index 0. *)
Lemma hc_write_leak_agree ck usz k s s' t t' : usize_ok usz -> 3084 <= N.of_nat k -> hrel s t 0 -> hrel s' t' 0 ->
  snd (r_hc_write ck usz k s) = snd (r_hc_write ck usz k s') -> agree t t'.
Proof.
  intros Hu Hk H H' E. rewrite (hc_write_leak ck usz k t Hu 0 s H), (hc_write_leak ck usz k t' Hu 0 s' H') in E.
  apply (run_leak_agree ck); [apply (hrel_bounded _ _ _ H) | apply (hrel_bounded _ _ _ H')|].
  intros i Hi. pose proof (flat_leak_inj ck t t' k 0 E (N.to_nat i) ltac:(lia)) as X. rewrite N2Nat.id in X. exact X.
Qed.

Lemma nth_ext_N (a b : list N) : length a = length b -> (forall i, (i < length a)%nat -> nth i a 0 = nth i b 0) -> a = b.
Proof. intros L H. apply (nth_ext a b 0 0 L H). Qed.
Lemma hc_write_leak_same ck usz k s s' t t' : usize_ok usz -> 3084 <= N.of_nat k -> hrel s (hc_run t 0) 0 -> hrel s' (hc_run t' 0) 0 ->
  snd (r_hc_write ck usz k s) = snd (r_hc_write ck usz k s') -> s = s'.
Proof.
  cbn [hc_run]. intros Hu Hk H H' E. pose proof (hc_write_leak_agree _ _ _ _ _ _ _ Hu Hk H H' E) as A. clear Hk E.
  destruct H as ((P1 & _ & P3) & (Q1 & _ & Q3) & J1), H' as ((P1' & _ & P3') & (Q1' & _ & Q3') & J2).
  destruct s as [p q i], s' as [p' q' i']. cbn [h_p h_q h_idx] in *. f_equal; [| |congruence].
  - apply nth_ext_N; [congruence|]. intros x Hx. specialize (A (N.of_nat x) ltac:(lia)) as [A _].
    rewrite <- P3, <- P3' in A by lia. rewrite Nat2N.id in A. exact A.
  - apply nth_ext_N; [congruence|]. intros x Hx. specialize (A (N.of_nat x) ltac:(lia)) as [_ A].
    rewrite <- Q3, <- Q3' in A by lia. rewrite Nat2N.id in A. exact A.
Qed.

(** ** RC4 *)
Lemma r_swap_leak l a b : length l = 256%nat -> a < 256 -> b < 256 ->
  snd (r_swap l a b) = [Rd (N.to_nat a); Rd (N.to_nat b); Wr (N.to_nat a); Wr (N.to_nat b)].
Proof.
  intros Hl Ha Hb. unfold r_swap. erewrite snd_bind; [|apply idx_ok; lia]. erewrite snd_bind; [|apply idx_ok; lia].
  erewrite snd_bind; [|apply set_idx_ok; lia]. reflexivity.
Qed.
Lemma r_ksa_step_leak key i l j : perm l -> (i < 256)%nat -> (0 < length key)%nat ->
  let j' := add8 (add8 j (at_ l (N.of_nat i))) (nth (i mod length key)%nat key 0) in
  snd (r_ksa_step key i (l, j)) = [Rd i; Rd (i mod length key)%nat; Rd i; Rd (N.to_nat j'); Wr i; Wr (N.to_nat j')].
Proof.
  intros Hp Hi Hk j'. unfold r_ksa_step. pose proof (perm_length l Hp) as Hl.
  pose proof (Nat.mod_upper_bound i (length key) ltac:(lia)).
  erewrite snd_bind; [|apply idx_ok; lia]. erewrite snd_bind; [|apply idx_ok; lia].
  fold (at_ l (N.of_nat i)). rewrite (Nat2N.id (i mod length key)). fold j'.
  erewrite snd_bind; [|rewrite r_swap_value; apply swap_ok; [exact Hl | lia | apply add8_lt]].
  rewrite r_swap_leak by (try assumption; try apply add8_lt; lia). unfold r_idx, leak, rret. cbn [snd app].
  rewrite !Nat2N.id. reflexivity.
Qed.
Lemma ksa_leak_inj k1 k2 n : bytes k1 -> bytes k2 -> (0 < length k1)%nat -> (0 < length k2)%nat -> forall i l j, perm l -> (i + n <= 256)%nat ->
  snd (r_for (seq i n) (r_ksa_step k1) (l, j)) = snd (r_for (seq i n) (r_ksa_step k2) (l, j)) ->
  forall m, (i <= m < i + n)%nat -> (m mod length k1 = m mod length k2)%nat /\ nth (m mod length k1) k1 0 = nth (m mod length k1) k2 0.
Proof.
  intros B1 B2 H1 H2. induction n as [|n IH]; intros i l j Hp Hi E m Hm; [lia|]. cbn [seq r_for] in E.
  pose proof (r_ksa_step_leak k1 i l j Hp ltac:(lia) H1) as L1. pose proof (r_ksa_step_leak k2 i l j Hp ltac:(lia) H2) as L2.
  pose proof (ksa_step_ok k1 i l j Hp ltac:(lia) H1) as V1. pose proof (ksa_step_ok k2 i l j Hp ltac:(lia) H2) as V2.
  cbv zeta in L1, L2, V1, V2.
  assert (F : forall k a, fst (r_ksa_step k i a) = ksa_step k i a).
  { intros k [st jj]. unfold r_ksa_step, ksa_step. ez. mz. ez. mz. ez. mz; [apply r_swap_value|]. reflexivity. }
  rewrite <- F in V1, V2.
  erewrite snd_bind in E; [|reflexivity]. erewrite snd_bind in E; [|exact V1].
  erewrite (snd_bind (leak [Br true] (Ok tt))) in E; [|reflexivity]. erewrite (snd_bind (r_ksa_step k2 i (l, j))) in E; [|exact V2].
  rewrite L1, L2 in E.
  set (j1 := add8 (add8 j (at_ l (N.of_nat i))) (nth (i mod length k1) k1 0)) in *.
  set (j2 := add8 (add8 j (at_ l (N.of_nat i))) (nth (i mod length k2) k2 0)) in *.
  assert (X : forall a b b' c c' (r r' : list event),
    ([Br true] ++ [Rd a; Rd b; Rd a; Rd c; Wr a; Wr c] ++ r = [Br true] ++ [Rd a; Rd b'; Rd a; Rd c'; Wr a; Wr c'] ++ r')%list ->
    b = b' /\ c = c' /\ r = r').
  { intros a b b' c c' r r' H. cbn [app] in H. injection H as ? ? ?. auto. }
  unfold leak in E. cbn [snd] in E. apply X in E as (E1 & E2 & E3).
  assert (Ej : j1 = j2) by lia.
  assert (Ek : nth (i mod length k1) k1 0 = nth (i mod length k1) k2 0).
  { rewrite E1 at 2. unfold j1, j2 in Ej.
    assert (G : forall k, bytes k -> (0 < length k)%nat -> nth (i mod length k) k 0 < 256).
    { intros k B H. apply (proj1 (Forall_forall _ _) B), nth_In, Nat.mod_upper_bound. lia. }
    pose proof (G k1 B1 H1). pose proof (G k2 B2 H2). unfold add8 in Ej. revert Ej.
    generalize (at_ l (N.of_nat i)). intros a Ej. lia. }
  destruct (Nat.eq_dec m i) as [->|Hne]; [auto|]. rewrite <- Ej in E3.
  refine (IH (S i) _ _ _ _ E3 m _); [|lia|lia].
  apply swap_is_perm; [exact Hp | lia | apply add8_lt].
Qed.
Lemma rc4_new_leak_inj k1 k2 : bytes k1 -> bytes k2 -> (1 <= length k1 <= 256)%nat -> (1 <= length k2 <= 256)%nat ->
  snd (r_new_from_slice k1) = snd (r_new_from_slice k2) -> k1 = k2.
Proof.
  intros B1 B2 H1 H2 E. unfold r_new_from_slice in E.
  assert (G : forall k, (1 <= length k <= 256)%nat -> snd (r_new_from_slice k)
     = (Br false :: snd (r_for (seq 0 256) (r_ksa_step k) (map N.of_nat (seq 0 256), 0)) ++ [])%list).
  { intros k Hk. unfold r_new_from_slice. rewrite (proj2 (len_check k) Hk). erewrite snd_bind; [|reflexivity].
    destruct (ksa_ok k 256 ltac:(lia) (le_n _)) as (l & j & Ek & _).
    erewrite snd_bind; [|erewrite fst_for; [exact Ek|]].
    - reflexivity.
    - intros i [st jj]. unfold r_ksa_step, ksa_step. ez. mz. ez. mz. ez. mz; [apply r_swap_value|]. reflexivity. }
  change (snd (r_new_from_slice k1) = snd (r_new_from_slice k2)) in E. rewrite !G in E by assumption.
  apply (f_equal (@tl event)) in E. cbn [tl] in E. rewrite !app_nil_r in E.
  pose proof (ksa_leak_inj k1 k2 256 B1 B2 ltac:(lia) ltac:(lia) 0 id256 0 (Permutation.Permutation_refl _) ltac:(lia) E) as K.
  assert (L : length k1 = length k2).
  { destruct (Nat.lt_trichotomy (length k1) (length k2)) as [H|[H|H]]; [|exact H|].
    - destruct (K (length k1) ltac:(lia)) as [X _]. rewrite Nat.mod_same, Nat.mod_small in X by lia. lia.
    - destruct (K (length k2) ltac:(lia)) as [X _]. rewrite (Nat.mod_same (length k2)), Nat.mod_small in X by lia. lia. }
  apply nth_ext_N; [exact L|]. intros i Hi. destruct (K i ltac:(lia)) as [_ X]. rewrite Nat.mod_small in X by exact Hi. exact X.
Qed.
