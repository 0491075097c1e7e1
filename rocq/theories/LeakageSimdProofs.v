(** Erasure of the instrumented pointer code: it computes what [Memory.v] computes. *)
From Verif Require Import Word Res Leakage LeakageRes LeakageResProofs LeakageSimd Memory.

(** As [mz], closing what it can. *)
Ltac mq := apply bind_ext; [try reflexivity | intros ?; try reflexivity].

Lemma sse2_load_value st : fst (sse2_load_lk st) = sse2_load_mem st.
Proof. unfold sse2_load_lk, sse2_load_mem. cbv zeta. do 8 (ez; mz). reflexivity. Qed.
Lemma avx2_load_value st : fst (avx2_load_rows_lk st) = avx2_load_rows_mem st.
Proof. unfold avx2_load_rows_lk, avx2_load_rows_mem. cbv zeta. do 8 (ez; mz). reflexivity. Qed.
Lemma avx512_load_value st : fst (avx512_load_lk st) = avx512_load_mem st.
Proof. unfold avx512_load_lk, avx512_load_mem. cbv zeta. do 7 (ez; mz). reflexivity. Qed.
Lemma neon_new_value st : fst (neon_new_lk st) = neon_new_mem st.
Proof. unfold neon_new_lk, neon_new_mem. cbv zeta. do 8 (ez; mz). reflexivity. Qed.

Lemma k_ones_value {B} (g : B -> list N -> LR (list N * B)) (h : B -> list N -> Res (list N * B)) :
  (forall b m, fst (g b m) = h b m) -> forall n b m, fst (k_ones g n b m) = m_ones h n b m.
Proof.
  intros H. induction n as [|n IH]; intros b m; [reflexivity|]. cbn [k_ones m_ones]. ez. rewrite H. mz. destruct x as [m1 b1].
  ez. rewrite IH. mz. destruct x. reflexivity.
Qed.
Lemma k_default_tail_value {B} p (g : B -> list N -> LR (list N * B)) (h : B -> list N -> Res (list N * B)) :
  (forall b m, fst (g b m) = h b m) -> forall n b m, fst (k_default_tail p g n b m) = m_default_tail p h n b m.
Proof. intros H n b m. unfold k_default_tail, m_default_tail. ez. mz. apply k_ones_value, H. Qed.
(** An instrumented backend and the backend it erases to. *)
Definition erases {B} (kb : kbackend B) (mb : mbackend B) : Prop :=
  (forall b m, fst (k_one kb b m) = m_one mb b m)
  /\ (forall b m, fst (k_many kb b m) = m_many mb b m)
  /\ (forall n b m, fst (k_tail kb n b m) = m_tail mb n b m).
Lemma k_run_value {B} (kb : kbackend B) mb : erases kb mb -> forall l b, fst (k_run kb l b) = m_run mb l b.
Proof.
  intros (H1 & H2 & H3). induction l as [|[r m] l IH]; intros b; [reflexivity|]. cbn [k_run m_run]. ez.
  apply bind_ext; [destruct r; auto|]. intros [o b1]. ez. rewrite IH. mz. destruct x. reflexivity.
Qed.

Lemma sse2_one_value v n b m : fst (sse2_one_lk v n b m) = sse2_one_mem v n b m.
Proof.
  unfold sse2_one_lk, sse2_one_mem. cbv zeta. ez. mq. apply fst_for. intros i mem. ez. mq.
Qed.
Lemma sse2_store_par_value res m : fst (sse2_store_par_lk res m) = sse2_store_par res m.
Proof.
  unfold sse2_store_par_lk, sse2_store_par. cbv zeta. apply fst_for. intros k mem. apply fst_for. intros i mem'. ez. mz. reflexivity.
Qed.
Lemma sse2_par_value v n b m : fst (sse2_par_lk v n b m) = sse2_par_mem v n b m.
Proof. unfold sse2_par_lk, sse2_par_mem. cbv zeta. ez. rewrite sse2_store_par_value. mq. Qed.
Lemma sse2_erases v n : erases (sse2_kbackend v n) (sse2_mbackend v n).
Proof.
  split; [apply sse2_one_value|]. split; [apply sse2_par_value|]. apply k_default_tail_value, sse2_one_value.
Qed.
Lemma sse2_inner_value v n l st : fst (sse2_inner_lk v n l st) = sse2_inner_mem v n l st.
Proof.
  unfold sse2_inner_lk, sse2_inner_mem. ez. mz; [apply sse2_load_value|]. ez. mz; [apply k_run_value, sse2_erases|].
  destruct x0. ez. destruct v; reflexivity.
Qed.
Lemma sse2_rng_value v n st m : fst (sse2_rng_inner_lk v n st m) = sse2_rng_inner_mem v n st m.
Proof.
  unfold sse2_rng_inner_lk, sse2_rng_inner_mem. ez. mz; [apply sse2_load_value|]. cbv zeta. rewrite fst_rbind, sse2_store_par_value. mq.
Qed.

Lemma avx2_one_value v n b m : fst (avx2_one_lk v n b m) = avx2_one_mem v n b m.
Proof.
  unfold avx2_one_lk, avx2_one_mem. cbv zeta. ez. mq. apply fst_for. intros i mem. ez. mq.
Qed.
Lemma avx2_store_par_value res m : fst (avx2_store_par_lk res m) = avx2_store_par res m.
Proof.
  unfold avx2_store_par_lk, avx2_store_par. cbv zeta. ez. mz; [|destruct x; reflexivity].
  apply fst_for. intros t [mem p]. cbv zeta. ez. mq.
  - apply fst_for. intros i mem'. do 3 (ez; mz). reflexivity.
  - ez. mq.
Qed.
Lemma avx2_par_value v n b m : fst (avx2_par_lk v n b m) = avx2_par_mem v n b m.
Proof. unfold avx2_par_lk, avx2_par_mem. cbv zeta. ez. rewrite avx2_store_par_value. mq. Qed.
Lemma avx2_erases v n : erases (avx2_kbackend v n) (avx2_mbackend v n).
Proof.
  split; [apply avx2_one_value|]. split; [apply avx2_par_value|]. apply k_default_tail_value, avx2_one_value.
Qed.
Lemma avx2_inner_value v n l st : fst (avx2_inner_lk v n l st) = avx2_inner_mem v n l st.
Proof.
  unfold avx2_inner_lk, avx2_inner_mem. ez. mz; [apply avx2_load_value|]. ez. mz; [apply k_run_value, avx2_erases|].
  destruct x0. ez. destruct v; reflexivity.
Qed.
Lemma avx2_rng_value n st m : fst (avx2_rng_inner_lk n st m) = avx2_rng_inner_mem n st m.
Proof.
  unfold avx2_rng_inner_lk, avx2_rng_inner_mem. ez. mz; [apply avx2_load_value|]. cbv zeta. rewrite fst_rbind, avx2_store_par_value. mq.
Qed.

Lemma avx512_one_value v n b m : fst (avx512_one_lk v n b m) = avx512_one_mem v n b m.
Proof.
  unfold avx512_one_lk, avx512_one_mem. cbv zeta. ez. mq. apply fst_for. intros i mem. ez. mq.
Qed.
Lemma avx512_full_value v nn n len b m : fst (avx512_full_lk v nn n len b m) = avx512_full_mem v nn n len b m.
Proof.
  unfold avx512_full_lk, avx512_full_mem. cbv zeta. rewrite fst_rbind. mz. rewrite fst_rbind. mq. apply fst_for. intros i mem.
  apply fst_for. intros j mem'. ez. destruct (_ <? len)%nat; [|reflexivity]. ez. mz. reflexivity.
Qed.
Lemma avx512_half_value v n len b m : fst (avx512_half_lk v n len b m) = avx512_half_mem v n len b m.
Proof.
  unfold avx512_half_lk, avx512_half_mem. cbv zeta. rewrite fst_rbind. mz. rewrite fst_rbind. mq. apply fst_for. intros i mem.
  ez. destruct (_ <? len)%nat; [|reflexivity]. destruct (nth i _ _) as [ab cd]. do 3 (ez; mz). reflexivity.
Qed.
Lemma avx512_tail_value v n len b m : fst (avx512_tail_lk v n len b m) = avx512_tail_mem v n len b m.
Proof.
  unfold avx512_tail_lk, avx512_tail_mem. ez. mz. ez. destruct (len =? 0)%nat; [reflexivity|]. ez.
  destruct (len =? 1)%nat; [apply avx512_one_value|]. ez. destruct (len =? 2)%nat; [apply avx512_half_value|]. ez.
  destruct (len <=? 4)%nat; [apply avx512_full_value|]. ez. destruct (len <=? 8)%nat; apply avx512_full_value.
Qed.
Lemma avx512_erases v n : erases (avx512_kbackend v n) (avx512_mbackend v n).
Proof.
  split; [apply avx512_one_value|]. split; [apply avx512_full_value|]. apply avx512_tail_value.
Qed.
Lemma avx512_inner_value v n l st : fst (avx512_inner_lk v n l st) = avx512_inner_mem v n l st.
Proof.
  unfold avx512_inner_lk, avx512_inner_mem. ez. mz; [apply avx512_load_value|]. ez. mz; [apply k_run_value, avx512_erases|].
  destruct x0. ez. destruct v; reflexivity.
Qed.

Lemma neon_par_value v n b m : fst (neon_par_lk v n b m) = neon_par_mem v n b m.
Proof.
  unfold neon_par_lk, neon_par_mem. cbv zeta. ez. mq. apply fst_for. intros i mem. apply fst_for. intros j mem'. do 2 (ez; mz). reflexivity.
Qed.
Lemma neon_one_value v n b m : fst (neon_one_lk v n b m) = neon_one_mem v n b m.
Proof.
  unfold neon_one_lk, neon_one_mem. cbv zeta. ez. rewrite neon_par_value. mz. destruct x. ez. mq.
Qed.
Lemma neon_erases v n : erases (neon_kbackend v n) (neon_mbackend v n).
Proof.
  split; [apply neon_one_value|]. split; [apply neon_par_value|]. apply k_default_tail_value, neon_one_value.
Qed.
Lemma neon_row3_value st r : fst (neon_store_row3_lk st r) = neon_store_row3_mem st r.
Proof. unfold neon_store_row3_lk, neon_store_row3_mem. cbv zeta. do 2 (ez; mq). Qed.
Lemma neon_inner_value v n l st : fst (neon_inner_lk v n l st) = neon_inner_mem v n l st.
Proof.
  unfold neon_inner_lk, neon_inner_mem. ez. mz; [apply neon_new_value|]. ez. mz; [apply k_run_value, neon_erases|].
  destruct x0. cbv zeta. destruct v; ez; [|rewrite neon_row3_value; reflexivity]. reflexivity.
Qed.
Lemma neon_rng_value v n st m : fst (neon_rng_inner_lk v n st m) = neon_rng_inner_mem v n st m.
Proof.
  unfold neon_rng_inner_lk, neon_rng_inner_mem. ez. mz; [apply neon_new_value|]. cbv zeta. rewrite fst_rbind. mz.
  - apply fst_for. intros i [mem p]. cbv zeta. ez. mq.
    + apply fst_for. intros j mem'. ez. mz. reflexivity.
    + ez. mq.
  - destruct x0. rewrite fst_rbind, neon_row3_value. mq.
Qed.
