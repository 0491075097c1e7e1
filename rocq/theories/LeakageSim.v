(** Two runs of an instrumented computation on different data: when neither panics they
    leak the same events and their results are related. *)
From Verif Require Import Word WordLemmas Res Leakage LeakageRes LeakageSimd Memory MemoryProofs Rabbit Rc4 Hc256.
From Coq Require Import Lia.

Definition sim {A B} (R : A -> B -> Prop) (m1 : LR A) (m2 : LR B) : Prop :=
  forall x y, fst m1 = Ok x -> fst m2 = Ok y -> snd m1 = snd m2 /\ R x y.
Definition TT {A B} : A -> B -> Prop := fun _ _ => True.
Definition same_len {A B} : list A -> list B -> Prop := fun a b => length a = length b.

Lemma sim_ret {A B} (R : A -> B -> Prop) x y : R x y -> sim R (rret x) (rret y).
Proof. intros H a b E1 E2. cbn in *. injection E1 as <-. injection E2 as <-. split; [reflexivity | exact H]. Qed.
Lemma sim_leak {A B} (R : A -> B -> Prop) t m1 m2 : (forall x y, m1 = Ok x -> m2 = Ok y -> R x y) -> sim R (leak t m1) (leak t m2).
Proof. intros H a b E1 E2. split; [reflexivity | apply H; assumption]. Qed.
Lemma sim_ok {A B} (R : A -> B -> Prop) t x y : R x y -> sim R (leak t (Ok x)) (leak t (Ok y)).
Proof. intros H. apply sim_leak. intros a b E1 E2. injection E1 as <-. injection E2 as <-. exact H. Qed.
Lemma sim_bind {A B A' B'} (R : A -> B -> Prop) (Q : A' -> B' -> Prop) m1 m2 f g :
  sim R m1 m2 -> (forall x y, R x y -> sim Q (f x) (g y)) -> sim Q (rbind m1 f) (rbind m2 g).
Proof.
  intros H1 H2 a b E1 E2. destruct m1 as [r1 t1], m2 as [r2 t2]. unfold rbind in *.
  destruct r1 as [x|]; [|discriminate]. destruct r2 as [y|]; [|discriminate].
  destruct (H1 x y eq_refl eq_refl) as [Et Rxy]. cbn [snd] in Et. subst t2.
  specialize (H2 x y Rxy a b). destruct (f x) as [r t], (g y) as [r' t']. cbn [fst snd] in *.
  destruct (H2 E1 E2) as [<- Hq]. split; [reflexivity | exact Hq].
Qed.
Lemma sim_weaken {A B} (R Q : A -> B -> Prop) m1 m2 : (forall x y, R x y -> Q x y) -> sim R m1 m2 -> sim Q m1 m2.
Proof. intros H S x y E1 E2. destruct (S x y E1 E2). split; auto. Qed.
Lemma sim_for2 {A A' S S'} (P : A -> A' -> Prop) (R : S -> S' -> Prop) l1 l2 b1 b2 : Forall2 P l1 l2 ->
  (forall x y s t, P x y -> R s t -> sim R (b1 x s) (b2 y t)) -> forall s t, R s t -> sim R (r_for l1 b1 s) (r_for l2 b2 t).
Proof.
  intros F H. induction F as [|x y l1 l2 Hxy F IH]; intros s t Hst; cbn [r_for]; [apply sim_ok, Hst|].
  eapply sim_bind with (R := TT); [apply sim_ok; exact I|]. intros _ _ _.
  eapply sim_bind; [apply H; eassumption|]. exact IH.
Qed.
Lemma sim_for {A S S'} (R : S -> S' -> Prop) (l : list A) b1 b2 : (forall x s t, R s t -> sim R (b1 x s) (b2 x t)) ->
  forall s t, R s t -> sim R (r_for l b1 s) (r_for l b2 t).
Proof.
  intros H. apply sim_for2 with (P := eq).
  - induction l; [apply Forall2_nil | apply Forall2_cons; auto].
  - intros x y s t <- Hst. apply H, Hst.
Qed.
Lemma sim_get l1 l2 i : sim TT (r_get l1 i) (r_get l2 i).
Proof. apply sim_ok. exact I. Qed.
Lemma sim_upd l1 l2 i x y : sim TT (r_upd l1 i x) (r_upd l2 i y).
Proof. apply sim_ok. exact I. Qed.
Lemma sim_upd_len l1 l2 i x y : same_len l1 l2 -> sim same_len (r_upd l1 i x) (r_upd l2 i y).
Proof. intros H. apply sim_ok. unfold same_len in *. now rewrite !upd_length. Qed.
Lemma sim_add ck m a b a' b' : sim TT (r_add ck m a b) (r_add ck m a' b').
Proof.
  intros x y E1 E2. split; [|exact I]. unfold r_add, leak, add_ck in *. cbn [fst snd] in *. destruct ck; [|reflexivity].
  destruct (N.ltb_spec (a + b) m); [|discriminate]. destruct (N.ltb_spec (a' + b') m); [|discriminate].
  f_equal. f_equal. transitivity false; [|symmetry]; apply N.leb_gt; assumption.
Qed.
Lemma sim_mul ck m a b a' b' : sim TT (r_mul ck m a b) (r_mul ck m a' b').
Proof.
  intros x y E1 E2. split; [|exact I]. unfold r_mul, leak, mul_ck in *. cbn [fst snd] in *. destruct ck; [|reflexivity].
  destruct (N.ltb_spec (a * b) m); [|discriminate]. destruct (N.ltb_spec (a' * b') m); [|discriminate].
  f_equal. f_equal. transitivity false; [|symmetry]; apply N.leb_gt; assumption.
Qed.
(** A step whose result we need not relate. *)
Ltac sb := apply sim_bind with (R := TT);
  [first [apply sim_get | apply sim_upd | apply sim_add | apply sim_mul | apply sim_ok; exact I] | intros ? ? _].
Ltac sx := apply sim_bind with (R := TT); [| intros ? ? _].

(** ** Rabbit: no relation on the data at all *)
Lemma sim_counter_update ck s t : sim TT (r_counter_update ck s) (r_counter_update ck t).
Proof.
  unfold r_counter_update. sx.
  - apply sim_for; [|exact I]. intros j [c b] [c' b'] _. unfold r_counter_step. do 5 sb. apply sim_ret. exact I.
  - destruct x, y. apply sim_ret. exact I.
Qed.
Lemma sim_mix g h a b c r q x y : sim TT (r_mix g a b c r q x) (r_mix h a b c r q y).
Proof. unfold r_mix. do 3 sb. apply sim_upd. Qed.
Lemma sim_next_state ck s t : sim TT (r_next_state ck s) (r_next_state ck t).
Proof.
  unfold r_next_state. sx; [apply sim_counter_update|]. sx.
  - apply sim_for; [|exact I]. intros j g h _. unfold r_g_step. do 4 sb. apply sim_upd.
  - do 8 (sx; [apply sim_mix|]). apply sim_ret. exact I.
Qed.
Lemma sim_next_state4 ck s t : sim TT (r_next_state4 ck s) (r_next_state4 ck t).
Proof. apply sim_for; [|exact I]. intros _ a b _. apply sim_next_state. Qed.
Lemma sim_subkey k1 k2 i a b : sim TT (r_subkey k1 i a) (r_subkey k2 i b).
Proof. unfold r_subkey. do 3 sb. apply sim_ret. exact I. Qed.
Lemma sim_setup_key ck k1 k2 : sim TT (r_setup_key ck k1) (r_setup_key ck k2).
Proof.
  unfold r_setup_key. do 8 (sx; [apply sim_subkey|]). sx.
  - apply sim_for; [|exact I]. intros j [a b] [c d] _. unfold r_setup_step.
    apply sim_bind with (R := eq); [apply sim_ok; reflexivity|]. intros e ? <-.
    destruct e; do 6 sb; apply sim_ret; exact I.
  - destruct x7, y7. sx; [apply sim_next_state4|]. sx.
    + apply sim_for; [|exact I]. intros j a b _. do 2 sb. apply sim_upd.
    + apply sim_ret. exact I.
Qed.
Lemma sim_iv_le a b o : sim TT (r_iv_le a o) (r_iv_le b o).
Proof. unfold r_iv_le. do 4 sb. apply sim_ret. exact I. Qed.
Lemma sim_xor a b j i k o : sim TT (r_xor a j i o) (r_xor b j k o).
Proof. unfold r_xor. do 2 sb. apply sim_upd. Qed.
Lemma sim_setup_iv ck a b s t : sim TT (r_setup_iv ck a s) (r_setup_iv ck b t).
Proof.
  unfold r_setup_iv. do 2 (sx; [apply sim_iv_le|]; sb). do 6 sb. do 8 (sx; [apply sim_xor|]). apply sim_next_state4.
Qed.
Lemma sim_tmp x y k a b ha hb t u : same_len t u -> sim same_len (r_tmp x k a b ha hb t) (r_tmp y k a b ha hb u).
Proof. intros H. unfold r_tmp. do 2 sb. apply sim_upd_len, H. Qed.
Lemma sim_out t : forall u i, same_len t u -> sim TT (r_out i t) (r_out i u).
Proof.
  induction t as [|a t IH]; intros [|b u] i H; try discriminate; cbn [r_out]; [apply sim_ret; exact I|].
  sb. sx; [apply IH; unfold same_len in *; cbn in H; lia|]. apply sim_ret. exact I.
Qed.
Lemma sim_extract s t : sim TT (r_extract s) (r_extract t).
Proof.
  unfold r_extract. do 8 (eapply sim_bind; [apply sim_tmp; first [assumption | reflexivity] | intros ? ? ?]).
  apply sim_out. assumption.
Qed.
Lemma sim_next_block ck s t : sim TT (r_next_block ck s) (r_next_block ck t).
Proof. unfold r_next_block. sx; [apply sim_next_state|]. sx; [apply sim_extract|]. apply sim_ret. exact I. Qed.
Lemma sim_rabbit_write ck k : forall s t, sim TT (r_rabbit_write ck k s) (r_rabbit_write ck k t).
Proof.
  induction k as [|k IH]; intros s t; cbn [r_rabbit_write]; [apply sim_ok; exact I|]. sb. sx; [apply sim_next_block|].
  destruct x0 as [o s1], y0 as [o' t1]. sx; [apply IH|]. destruct x0, y0. apply sim_ret. exact I.
Qed.
Lemma sim_rabbit_new ck k1 k2 a b : sim TT (r_rabbit_new ck k1 a) (r_rabbit_new ck k2 b).
Proof. unfold r_rabbit_new, r_rabbit_key_only. sx; [apply sim_setup_key|]. apply sim_setup_iv. Qed.

(** ** Pointer code: memories of equal length, equal pointers *)
Lemma sim_padd p k : sim eq (r_padd p k) (r_padd p k).
Proof. apply sim_leak. intros x y -> E. now injection E. Qed.
Lemma sim_load m1 m2 p : sim TT (r_load128 m1 p) (r_load128 m2 p).
Proof. apply sim_leak. intros; exact I. Qed.
Lemma p_store_len m p bs m' : p_store m p bs = Ok m' -> length m' = length m.
Proof.
  unfold p_store, in_bounds. destruct ((_ <=? _)%nat && _ && _)%bool eqn:E; [|discriminate].
  apply andb_prop in E as [E E3]. apply andb_prop in E as [_ E2]. apply Nat.leb_le in E2, E3.
  intros H. injection H as <-. apply put_length. lia.
Qed.
Lemma sim_store m1 m2 p b1 b2 : same_len m1 m2 -> sim same_len (r_store m1 p b1) (r_store m2 p b2).
Proof.
  intros H. apply sim_leak. intros x y E1 E2. unfold same_len in *. now rewrite (p_store_len _ _ _ _ E1), (p_store_len _ _ _ _ E2).
Qed.
Lemma whole_same (m1 m2 : list N) e : same_len m1 m2 -> whole m1 e = whole m2 e.
Proof. unfold same_len, whole. now intros ->. Qed.
Lemma sim_element m1 m2 sz i e : same_len m1 m2 -> sim eq (r_element m1 sz i e) (r_element m2 sz i e).
Proof.
  unfold same_len. intros H. unfold r_element, element. rewrite H. apply sim_leak. intros x y E1 E2. congruence.
Qed.
(** A pointer computed the same way in both runs. *)
Ltac sp := eapply sim_bind; [apply sim_padd | intros ? ? <-].
Ltac sm := eapply sim_bind; [apply sim_store; eassumption | intros ? ? ?].

Lemma bytes_same a b : length a = length b -> same_len (bytes_of_words a) (bytes_of_words b).
Proof. unfold same_len. rewrite !bytes_of_words_length. lia. Qed.
Lemma sim_sse2_load a b : length a = length b -> sim TT (sse2_load_lk a) (sse2_load_lk b).
Proof.
  intros H. unfold sse2_load_lk. cbv zeta. rewrite (whole_same _ _ 16 (bytes_same _ _ H)).
  do 4 (sp; sx; [apply sim_load|]). apply sim_ret. exact I.
Qed.
Lemma sim_avx2_load a b : length a = length b -> sim TT (avx2_load_rows_lk a) (avx2_load_rows_lk b).
Proof.
  intros H. unfold avx2_load_rows_lk. cbv zeta. rewrite (whole_same _ _ 16 (bytes_same _ _ H)).
  do 4 (sp; sx; [apply sim_load|]). apply sim_ret. exact I.
Qed.
Lemma sim_avx512_load a b : length a = length b -> sim TT (avx512_load_lk a) (avx512_load_lk b).
Proof.
  intros H. unfold avx512_load_lk. cbv zeta. rewrite (whole_same _ _ 4 (bytes_same _ _ H)).
  sx; [apply sim_load|]. do 3 (sp; sx; [apply sim_load|]). apply sim_ret. exact I.
Qed.
Lemma sim_neon_new a b : length a = length b -> sim TT (neon_new_lk a) (neon_new_lk b).
Proof.
  intros H. unfold neon_new_lk. cbv zeta. rewrite (whole_same _ _ 4 (bytes_same _ _ H)).
  do 4 (sp; sx; [apply sim_load|]). apply sim_ret. exact I.
Qed.

(** Output memory of equal length; backend registers unrelated. *)
Definition RO {B C} : list N * B -> list N * C -> Prop := fun x y => same_len (fst x) (fst y).
Definition oblivious {B} (g : B -> list N -> LR (list N * B)) : Prop :=
  forall b c m1 m2, same_len m1 m2 -> sim RO (g b m1) (g c m2).
Lemma sim_ones {B} (g : B -> list N -> LR (list N * B)) : oblivious g -> forall n, oblivious (k_ones g n).
Proof.
  intros H. induction n as [|n IH]; intros b c m1 m2 E; cbn [k_ones]; [apply sim_ok; exact E|]. sb.
  eapply sim_bind; [apply H; unfold same_len in *; rewrite !firstn_length, E; reflexivity|].
  intros [a1 b1] [a2 b2] E1. eapply sim_bind; [apply IH; unfold same_len in *; rewrite !skipn_length, E; reflexivity|].
  intros [c1 d1] [c2 d2] E2. apply sim_ret. unfold RO, same_len in *. cbn [fst] in *. rewrite !app_length. lia.
Qed.
Lemma sim_default_tail {B} p (g : B -> list N -> LR (list N * B)) n : oblivious g -> oblivious (k_default_tail p g n).
Proof.
  intros H b c m1 m2 E. unfold k_default_tail, r_assert. sx; [apply sim_leak; intros; exact I|]. apply sim_ones; assumption.
Qed.
Definition oblivious_backend {B} (k : kbackend B) : Prop :=
  oblivious (k_one k) /\ oblivious (k_many k) /\ forall n, oblivious (k_tail k n).
(** Closures making the same requests into buffers of the same length. *)
Definition alike (x y : req * list N) : Prop := fst x = fst y /\ length (snd x) = length (snd y).
Lemma sim_run {B} (k : kbackend B) : oblivious_backend k -> forall l1 l2, Forall2 alike l1 l2 ->
  forall b c, sim TT (k_run k l1 b) (k_run k l2 c).
Proof.
  intros (H1 & H2 & H3) l1 l2 F. induction F as [|[r m] [r' m'] l1 l2 [E1 E2] F IH]; intros b c; cbn [k_run].
  - apply sim_ret. exact I.
  - cbn [fst snd] in E1, E2. subst r'. apply sim_bind with (R := RO).
    + destruct r; [apply H1 | apply H2 | apply H3]; exact E2.
    + intros [o b1] [o' c1] _. sx; [apply IH|]. destruct x, y. apply sim_ret. exact I.
Qed.

(** SSE2 *)
Lemma sim_sse2_one v n : oblivious (sse2_one_lk v n).
Proof.
  intros b c m1 m2 E. unfold sse2_one_lk. cbv zeta. rewrite (whole_same _ _ 16 E). apply sim_bind with (R := same_len); [|intros x y H; apply sim_ret; exact H].
  apply sim_for; [|exact E]. intros i s t H. sp. apply sim_store, H.
Qed.
Lemma sim_sse2_store r1 r2 m1 m2 : same_len m1 m2 -> sim same_len (sse2_store_par_lk r1 m1) (sse2_store_par_lk r2 m2).
Proof.
  intros E. unfold sse2_store_par_lk. cbv zeta. rewrite (whole_same _ _ 16 E). apply sim_for; [|exact E]. intros k s t H.
  apply sim_for; [|exact H]. intros i s' t' H'. sp. apply sim_store, H'.
Qed.
Lemma sim_sse2_par v n : oblivious (sse2_par_lk v n).
Proof.
  intros b c m1 m2 E. unfold sse2_par_lk. cbv zeta. eapply sim_bind; [apply sim_sse2_store, E | intros x y H; apply sim_ret; exact H].
Qed.
Lemma sse2_oblivious v n : oblivious_backend (sse2_kbackend v n).
Proof. split; [apply sim_sse2_one|]. split; [apply sim_sse2_par|]. intros k. apply sim_default_tail, sim_sse2_one. Qed.
Lemma sim_sse2_inner v n l1 l2 a b : Forall2 alike l1 l2 -> length a = length b -> sim TT (sse2_inner_lk v n l1 a) (sse2_inner_lk v n l2 b).
Proof.
  intros F H. unfold sse2_inner_lk. sx; [apply sim_sse2_load, H|]. sx; [apply sim_run; [apply sse2_oblivious | exact F]|].
  destruct x0, y0. sb. sx; [|apply sim_ret; exact I]. destruct v; [apply sim_ret; exact I | apply sim_upd].
Qed.
Lemma sim_sse2_rng v n a b m1 m2 : length a = length b -> same_len m1 m2 -> sim TT (sse2_rng_inner_lk v n a m1) (sse2_rng_inner_lk v n b m2).
Proof.
  intros H E. unfold sse2_rng_inner_lk. sx; [apply sim_sse2_load, H|]. cbv zeta.
  eapply sim_bind; [apply sim_sse2_store, E|]. intros ? ? _. do 2 sb. apply sim_ret. exact I.
Qed.

(** AVX2: the store loop runs over the vectors computed, always [avx2_N] of them. *)
Lemma avx2_rounds_same n v c v' c' : length (avx2_rounds n v c) = length (avx2_rounds n v' c').
Proof.
  assert (X : forall l f (vs : list (list m256)), length (fold_left (fun (vs : list (list m256)) (i : nat) => upd vs i (f vs i)) l vs) = length vs).
  { induction l as [|i l IH]; intros f vs; cbn [fold_left]; [reflexivity|]. rewrite IH. apply upd_length. }
  assert (Y : forall m vs, length (iter_n m avx2_double_quarter_round vs) = length vs).
  { induction m as [|m IH]; intros vs; [reflexivity|]. cbn [iter_n]. rewrite IH. clear IH.
    unfold avx2_double_quarter_round, avx2_rows_to_cols, avx2_cols_to_rows, avx2_add_xor_rot. now rewrite ?map_length. }
  assert (Z : forall n v c, length (avx2_rounds n v c) = avx2_N).
  { intros n0 v0 c0. unfold avx2_rounds. cbv zeta.
    rewrite (X _ (fun vs i => upd (fold_left (fun e j => upd e j (mm256_add_epi32 (nth j e []) (nth j v0 []))) (seq 0 3) (nth i vs [])) 3
      (mm256_add_epi32 (nth 3 (fold_left (fun e j => upd e j (mm256_add_epi32 (nth j e []) (nth j v0 []))) (seq 0 3) (nth i vs [])) []) (nth i c0 [])))).
    rewrite Y, map_length, seq_length. reflexivity. }
  now rewrite !Z.
Qed.
Lemma same_len_Forall2 {A B} (l1 : list A) (l2 : list B) : length l1 = length l2 -> Forall2 TT l1 l2.
Proof.
  revert l2; induction l1 as [|a l1 IH]; intros [|b l2] H; try discriminate; [apply Forall2_nil|].
  apply Forall2_cons; [exact I|]. apply IH. now injection H.
Qed.
Lemma sim_avx2_one v n : oblivious (avx2_one_lk v n).
Proof.
  intros b c m1 m2 E. unfold avx2_one_lk. cbv zeta. rewrite (whole_same _ _ 16 E). apply sim_bind with (R := same_len); [|intros x y H; apply sim_ret; exact H].
  apply sim_for; [|exact E]. intros i s t H. sp. apply sim_store, H.
Qed.
Lemma sim_avx2_store r1 r2 m1 m2 : length r1 = length r2 -> same_len m1 m2 ->
  sim same_len (avx2_store_par_lk r1 m1) (avx2_store_par_lk r2 m2).
Proof.
  intros L E. unfold avx2_store_par_lk. cbv zeta. rewrite (whole_same _ _ 16 E).
  apply sim_bind with (R := fun x y => same_len (fst x) (fst y) /\ snd x = snd y).
  - apply sim_for2 with (P := TT); [apply same_len_Forall2, L | | split; [exact E | reflexivity]].
    intros v w [s p] [t q] _ [H1 H2]. cbn [fst snd] in H1, H2. subst q. eapply sim_bind.
    + apply sim_for with (R := same_len); [|exact H1]. intros i s' t' H. sp. sm. sp. apply sim_store. assumption.
    + intros s' t' H. sp. apply sim_ret. split; [exact H | reflexivity].
  - intros [s p] [t q] [H _]. apply sim_ret. exact H.
Qed.
Lemma sim_avx2_par v n : oblivious (avx2_par_lk v n).
Proof.
  intros b c m1 m2 E. unfold avx2_par_lk. cbv zeta.
  eapply sim_bind; [apply sim_avx2_store; [apply avx2_rounds_same | exact E] | intros x y H; apply sim_ret; exact H].
Qed.
Lemma avx2_oblivious v n : oblivious_backend (avx2_kbackend v n).
Proof. split; [apply sim_avx2_one|]. split; [apply sim_avx2_par|]. intros k. apply sim_default_tail, sim_avx2_one. Qed.
Lemma sim_avx2_inner v n l1 l2 a b : Forall2 alike l1 l2 -> length a = length b -> sim TT (avx2_inner_lk v n l1 a) (avx2_inner_lk v n l2 b).
Proof.
  intros F H. unfold avx2_inner_lk. sx; [apply sim_avx2_load, H|]. sx; [apply sim_run; [apply avx2_oblivious | exact F]|].
  destruct x0, y0. sb. sx; [|apply sim_ret; exact I]. destruct v; [apply sim_ret; exact I | apply sim_upd].
Qed.
Lemma sim_avx2_rng n a b m1 m2 : length a = length b -> same_len m1 m2 -> sim TT (avx2_rng_inner_lk n a m1) (avx2_rng_inner_lk n b m2).
Proof.
  intros H E. unfold avx2_rng_inner_lk. sx; [apply sim_avx2_load, H|]. cbv zeta.
  eapply sim_bind; [apply sim_avx2_store; [apply avx2_rounds_same | exact E]|]. intros ? ? _. do 2 sb. apply sim_ret. exact I.
Qed.

(** AVX-512 *)
Lemma sim_avx512_one v n : oblivious (avx512_one_lk v n).
Proof.
  intros b c m1 m2 E. unfold avx512_one_lk. cbv zeta. apply sim_bind with (R := same_len); [|intros x y H; apply sim_ret; exact H].
  apply sim_for; [|exact E]. intros i s t H. rewrite (whole_same _ _ 4 H). sp. apply sim_store, H.
Qed.
Lemma sim_if {A B} (R : A -> B -> Prop) (c : bool) m1 m2 k1 k2 : (c = true -> sim R m1 m2) -> (c = false -> sim R k1 k2) ->
  sim R (dol x <- r_branch c; if x then m1 else k1) (dol x <- r_branch c; if x then m2 else k2).
Proof.
  intros H1 H2. apply sim_bind with (R := fun x y => x = c /\ y = c); [apply sim_ok; auto|].
  intros x y [-> ->]. destruct c; auto.
Qed.
Lemma sim_avx512_full v nn n len : oblivious (avx512_full_lk v nn n len).
Proof.
  intros b c m1 m2 E. unfold avx512_full_lk. cbv zeta. sx; [apply sim_leak; intros; exact I|].
  apply sim_bind with (R := same_len); [|intros ? ? H; apply sim_ret; exact H]. apply sim_for; [|exact E]. intros i s t H.
  apply sim_for; [|exact H]. intros j s' t' H'. apply sim_if; intros _; [|apply sim_ret; exact H'].
  eapply sim_bind; [apply sim_element, H' | intros ? ? <-]. apply sim_store, H'.
Qed.
Lemma sim_avx512_half v n len : oblivious (avx512_half_lk v n len).
Proof.
  intros b c m1 m2 E. unfold avx512_half_lk. cbv zeta. sx; [apply sim_leak; intros; exact I|].
  apply sim_bind with (R := same_len); [|intros ? ? H; apply sim_ret; exact H]. apply sim_for; [|exact E]. intros i s t H.
  apply sim_if; intros _; [|apply sim_ret; exact H].
  destruct (nth i _ ([], [])) as [p q], (nth i _ ([], [])) as [p' q'].
  eapply sim_bind; [apply sim_element, H | intros ? ? <-]. sm. sp. apply sim_store. assumption.
Qed.
Lemma sim_avx512_tail v n len : oblivious (avx512_tail_lk v n len).
Proof.
  intros b c m1 m2 E. unfold avx512_tail_lk. sx; [apply sim_leak; intros; exact I|].
  apply sim_if; intros _; [apply sim_ret; exact E|]. apply sim_if; intros _; [apply sim_avx512_one, E|].
  apply sim_if; intros _; [apply sim_avx512_half, E|]. apply sim_if; intros _; [apply sim_avx512_full, E|].
  apply sim_if; intros _; apply sim_avx512_full, E.
Qed.
Lemma avx512_oblivious v n : oblivious_backend (avx512_kbackend v n).
Proof. split; [apply sim_avx512_one|]. split; [apply sim_avx512_full | apply sim_avx512_tail]. Qed.
Lemma sim_avx512_inner v n l1 l2 a b : Forall2 alike l1 l2 -> length a = length b -> sim TT (avx512_inner_lk v n l1 a) (avx512_inner_lk v n l2 b).
Proof.
  intros F H. unfold avx512_inner_lk. sx; [apply sim_avx512_load, H|]. sx; [apply sim_run; [apply avx512_oblivious | exact F]|].
  destruct x0, y0. sb. sx; [|apply sim_ret; exact I]. destruct v; [apply sim_ret; exact I | apply sim_upd].
Qed.

(** NEON *)
Lemma sim_neon_par v n : oblivious (neon_par_lk v n).
Proof.
  intros b c m1 m2 E. unfold neon_par_lk. cbv zeta. apply sim_bind with (R := same_len); [|intros x y H; apply sim_ret; exact H].
  apply sim_for; [|exact E]. intros i s t H. apply sim_for; [|exact H]. intros j s' t' H'.
  eapply sim_bind; [apply sim_element, H' | intros ? ? <-]. sp. apply sim_store, H'.
Qed.
Lemma sim_neon_one v n : oblivious (neon_one_lk v n).
Proof.
  intros b c m1 m2 E. unfold neon_one_lk. cbv zeta. eapply sim_bind; [apply sim_neon_par; reflexivity|].
  intros [p s] [q t] _. rewrite (whole_same _ _ 64 E). sm. apply sim_ret. assumption.
Qed.
Lemma neon_oblivious v n : oblivious_backend (neon_kbackend v n).
Proof. split; [apply sim_neon_one|]. split; [apply sim_neon_par|]. intros k. apply sim_default_tail, sim_neon_one. Qed.
Lemma sim_neon_row3 a b r s : length a = length b -> sim TT (neon_store_row3_lk a r) (neon_store_row3_lk b s).
Proof.
  intros H. apply bytes_same in H. unfold neon_store_row3_lk. cbv zeta. rewrite (whole_same _ _ 4 H). sp. sm. apply sim_ret. exact I.
Qed.
Lemma sim_neon_inner v n l1 l2 a b : Forall2 alike l1 l2 -> length a = length b -> sim TT (neon_inner_lk v n l1 a) (neon_inner_lk v n l2 b).
Proof.
  intros F H. unfold neon_inner_lk. sx; [apply sim_neon_new, H|]. sx; [apply sim_run; [apply neon_oblivious | exact F]|].
  destruct x0, y0. cbv zeta. sx; [|apply sim_ret; exact I]. destruct v; [apply sim_upd | apply sim_neon_row3, H].
Qed.
Lemma sim_neon_rng v n a b m1 m2 : length a = length b -> same_len m1 m2 -> sim TT (neon_rng_inner_lk v n a m1) (neon_rng_inner_lk v n b m2).
Proof.
  intros H E. unfold neon_rng_inner_lk. sx; [apply sim_neon_new, H|]. cbv zeta. rewrite (whole_same _ _ 1 E).
  apply sim_bind with (R := TT).
  - eapply sim_weaken; [intros ? ? _; exact I|].
    apply sim_for with (R := fun x y => same_len (fst x) (fst y) /\ snd x = snd y); [|split; [exact E | reflexivity]].
    intros i [s p] [t q] [H1 H2]. cbn [fst snd] in H1, H2. subst q. eapply sim_bind.
    + apply sim_for with (R := same_len); [|exact H1]. intros j s' t' H'. sp. apply sim_store, H'.
    + intros s' t' H'. sp. apply sim_ret. split; [exact H' | reflexivity].
  - intros [s p] [t q] _. sx; [apply sim_neon_row3, H|]. apply sim_ret. exact I.
Qed.

(** What two good runs have in common. *)
Lemma sim_traces {A B} (R : A -> B -> Prop) (m1 : LR A) (m2 : LR B) : sim R m1 m2 ->
  (exists x, fst m1 = Ok x) -> (exists y, fst m2 = Ok y) -> snd m1 = snd m2.
Proof. intros H [x E1] [y E2]. apply (H x y E1 E2). Qed.
