(** AVX-512 backend = portable backend, for every closure. *)
From Verif Require Import Word WordLemmas Res Simd ChaChaCore ChaChaBackend ChaChaSoft ChaChaProofs SimdProofs
  ChaChaAvx512 ChaChaSse2 ChaChaSse2Proofs ChaChaAvx2Proofs.
From Coq Require Import ZArith Lia ZifyBool ZifyNat ZifyN.
Ltac Zify.zify_post_hook ::= Z.div_mod_to_equations.

(** ** List lemmas *)
Lemma upd_app_skip {A} (l1 l2 : list A) x y : upd (l1 ++ x :: l2) (length l1) y = l1 ++ y :: l2.
Proof. induction l1 as [|h l1 IH]; [reflexivity|]. cbn [app length upd]. rewrite IH. reflexivity. Qed.

Lemma fold_upd_seq {A} (g : nat -> A -> A) d k : forall vs, length vs = k ->
  fold_left (fun vs i => upd vs i (g i (nth i vs d))) (seq 0 k) vs = map (fun i => g i (nth i vs d)) (seq 0 k).
Proof.
  intros vs Hl.
  assert (Gen : forall m pre suf, length suf = m ->
    fold_left (fun vs i => upd vs i (g i (nth i vs d))) (seq (length pre) m) (pre ++ suf)
    = pre ++ map (fun i => g i (nth i (pre ++ suf) d)) (seq (length pre) m)).
  { induction m as [|m IH]; intros pre suf Hs.
    - destruct suf; [reflexivity|discriminate].
    - destruct suf as [|x suf]; [discriminate|]. cbn [seq fold_left map].
      rewrite upd_app_skip, app_nth2, Nat.sub_diag by lia. cbn [nth].
      set (y := g (length pre) x).
      change (pre ++ y :: suf) with (pre ++ [y] ++ suf). rewrite app_assoc.
      replace (S (length pre)) with (length (pre ++ [y])) by (rewrite app_length; cbn; lia).
      rewrite IH by (cbn in Hs; lia). rewrite <- app_assoc. cbn [app]. f_equal. f_equal.
      apply map_ext_in. intros i Hi. apply in_seq in Hi. f_equal.
      rewrite app_length in Hi. cbn in Hi.
      rewrite !app_nth2 by (rewrite ?app_length; cbn; lia). rewrite app_length. cbn [length].
      destruct (i - length pre)%nat as [|q] eqn:Eq; [lia|]. cbn [nth].
      f_equal. lia. }
  specialize (Gen k [] vs Hl). exact Gen.
Qed.

Lemma flat_map_seq_shift {A} (f : nat -> list A) b k : flat_map f (seq b k) = flat_map (fun j => f (b + j)%nat) (seq 0 k).
Proof.
  revert f b; induction k as [|k IH]; intros f b; [reflexivity|]. cbn [seq flat_map].
  rewrite Nat.add_0_r. f_equal. rewrite IH. rewrite (IH (fun j => f (b + j)%nat) 1%nat).
  apply flat_map_ext. intros j. f_equal. lia.
Qed.
Lemma flat_map_nest {A} (f : nat -> list A) m nn :
  flat_map (fun i => flat_map (fun j => f (i * m + j)%nat) (seq 0 m)) (seq 0 nn) = flat_map f (seq 0 (nn * m)).
Proof.
  induction nn as [|nn IH]; [reflexivity|].
  replace (S nn) with (nn + 1)%nat by lia. rewrite Nat.mul_add_distr_r, !seq_app, !flat_map_app, IH.
  f_equal. cbn [seq flat_map Nat.add Nat.mul]. rewrite app_nil_r, Nat.add_0_r. symmetry. apply flat_map_seq_shift.
Qed.
Lemma flat_map_guard {A} (f : nat -> list A) len m : (len <= m)%nat ->
  flat_map (fun k => if (k <? len)%nat then f k else []) (seq 0 m) = flat_map f (seq 0 len).
Proof.
  intros H. replace m with (len + (m - len))%nat by lia. rewrite seq_app, flat_map_app.
  rewrite flat_map_ext_in' with (g := f).
  2:{ intros k Hk. apply in_seq in Hk. replace (k <? len)%nat with true by lia. reflexivity. }
  rewrite flat_map_ext_in' with (g := fun _ => []) (l := seq (0 + len) _).
  2:{ intros k Hk. apply in_seq in Hk. replace (k <? len)%nat with false by lia. reflexivity. }
  assert (E : forall l : list nat, flat_map (fun _ : nat => @nil A) l = []) by (induction l; auto).
  rewrite E. apply app_nil_r.
Qed.

(** ** Quarter-width (128-bit) *)
Transparent canon_axr.
Lemma axr_q e : avx512_add_xor_rot_quarterwide e = canon_axr e.
Proof. destruct e as [|a [|b [|c [|d [|]]]]]; reflexivity. Qed.
Opaque canon_axr.
Lemma dqr_q st : length st = 16%nat -> avx512_double_quarter_round_quarterwide (rows st) = rows (double_round st).
Proof.
  intros H. rewrite <- x86_dqr_rows by assumption.
  unfold avx512_double_quarter_round_quarterwide, x86_dqr. rewrite !axr_q. reflexivity.
Qed.
Lemma rounds_q n st : length st = 16%nat -> avx512_rounds_quarterwide n (rows st) = rows (run_rounds n st).
Proof.
  intros H. unfold avx512_rounds_quarterwide. rewrite (iter_rows _ n st dqr_q) by assumption.
  unfold rows. cbn [map2]. unfold mm_add_epi32. rewrite ff_r0, ff_r1, ff_r2, ff_r3 by assumption. reflexivity.
Qed.

(** ** Half-width (256-bit) *)
Transparent canon_axr.
Lemma axr_h e e' : e4 e -> e4 e' -> avx512_add_xor_rot_halfwide (T [e; e']) = T [canon_axr e; canon_axr e'].
Proof.
  intros He He'. destruct (e4_inv e He) as (a & b & c & d & -> & _).
  destruct (e4_inv e' He') as (a' & b' & c' & d' & -> & _). reflexivity.
Qed.
(** ** Full width (512-bit), one vector group *)
Lemma axr_f e e' e'' e''' : e4 e -> e4 e' -> e4 e'' -> e4 e''' ->
  avx512_add_xor_rot [T [e; e'; e''; e''']] = [T [canon_axr e; canon_axr e'; canon_axr e''; canon_axr e''']].
Proof.
  intros He He' He'' He'''. destruct (e4_inv e He) as (a & b & c & d & -> & _).
  destruct (e4_inv e' He') as (a' & b' & c' & d' & -> & _).
  destruct (e4_inv e'' He'') as (a'' & b'' & c'' & d'' & -> & _).
  destruct (e4_inv e''' He''') as (a''' & b''' & c''' & d''' & -> & _). reflexivity.
Qed.
Opaque canon_axr.

Lemma dqr_h s t : length s = 16%nat -> length t = 16%nat ->
  avx512_double_quarter_round_halfwide (cols [s; t]) = cols [double_round s; double_round t].
Proof.
  intros Hs Ht. rewrite !cols_T. cbn [map]. rewrite <- !x86_dqr_rows by assumption.
  pose proof (rows_e4 s Hs) as Es. pose proof (rows_e4 t Ht) as Et.
  unfold avx512_double_quarter_round_halfwide. rewrite axr_h by assumption.
  assert (Hr : forall e e', e4 e -> e4 e' -> avx512_rows_to_cols_halfwide (T [e; e']) = T [x86_r2c e; x86_r2c e']).
  { intros e e' He He'. destruct (e4_inv e He) as (a & b & c & d & -> & _).
    destruct (e4_inv e' He') as (a' & b' & c' & d' & -> & _). reflexivity. }
  assert (Hc : forall e e', e4 e -> e4 e' -> avx512_cols_to_rows_halfwide (T [e; e']) = T [x86_c2r e; x86_c2r e']).
  { intros e e' He He'. destruct (e4_inv e He) as (a & b & c & d & -> & _).
    destruct (e4_inv e' He') as (a' & b' & c' & d' & -> & _). reflexivity. }
  rewrite Hr, axr_h, Hc by auto using canon_axr_e4, x86_r2c_e4. reflexivity.
Qed.

Lemma rounds_h n s t : length s = 16%nat -> length t = 16%nat ->
  avx512_rounds_halfwide n (cols [s; t]) = cols [run_rounds n s; run_rounds n t].
Proof.
  intros Hs Ht. unfold avx512_rounds_halfwide.
  rewrite (iter_cols double_round _ (fun l => exists s t, l = [s; t] /\ length s = 16%nat /\ length t = 16%nat)).
  - apply (ff_cols n [s; t]). unfold all16. auto.
  - intros l (x & y & -> & Hx & Hy). apply dqr_h; assumption.
  - intros l (x & y & -> & Hx & Hy). exists (double_round x), (double_round y).
    split; [reflexivity|]. split; apply double_round_wf; assumption.
  - eauto.
Qed.

Definition dqr_f1 (e : list m512) : list m512 := nth 0 (avx512_double_quarter_round [e]) [].
Lemma avx512_dqr_map vs : avx512_double_quarter_round vs = map dqr_f1 vs.
Proof.
  unfold avx512_double_quarter_round, dqr_f1, avx512_double_quarter_round, avx512_cols_to_rows, avx512_rows_to_cols,
    avx512_add_xor_rot.
  cbv zeta. rewrite !map_map. apply map_ext. intros e. cbn [map nth]. reflexivity.
Qed.

Lemma dqr_f s t u w : length s = 16%nat -> length t = 16%nat -> length u = 16%nat -> length w = 16%nat ->
  dqr_f1 (cols [s; t; u; w]) = cols [double_round s; double_round t; double_round u; double_round w].
Proof.
  intros Hs Ht Hu Hw. rewrite !cols_T. cbn [map]. rewrite <- !x86_dqr_rows by assumption.
  pose proof (rows_e4 s Hs) as Es. pose proof (rows_e4 t Ht) as Et.
  pose proof (rows_e4 u Hu) as Eu. pose proof (rows_e4 w Hw) as Ew.
  assert (Hr : forall e e' e'' e''', e4 e -> e4 e' -> e4 e'' -> e4 e''' ->
    avx512_rows_to_cols [T [e; e'; e''; e''']] = [T [x86_r2c e; x86_r2c e'; x86_r2c e''; x86_r2c e''']]).
  { intros e e' e'' e''' He He' He'' He'''. destruct (e4_inv e He) as (a & b & c & d & -> & _).
    destruct (e4_inv e' He') as (a' & b' & c' & d' & -> & _).
    destruct (e4_inv e'' He'') as (a'' & b'' & c'' & d'' & -> & _).
    destruct (e4_inv e''' He''') as (a''' & b''' & c''' & d''' & -> & _). reflexivity. }
  assert (Hc : forall e e' e'' e''', e4 e -> e4 e' -> e4 e'' -> e4 e''' ->
    avx512_cols_to_rows [T [e; e'; e''; e''']] = [T [x86_c2r e; x86_c2r e'; x86_c2r e''; x86_c2r e''']]).
  { intros e e' e'' e''' He He' He'' He'''. destruct (e4_inv e He) as (a & b & c & d & -> & _).
    destruct (e4_inv e' He') as (a' & b' & c' & d' & -> & _).
    destruct (e4_inv e'' He'') as (a'' & b'' & c'' & d'' & -> & _).
    destruct (e4_inv e''' He''') as (a''' & b''' & c''' & d''' & -> & _). reflexivity. }
  unfold dqr_f1, avx512_double_quarter_round.
  rewrite axr_f, Hr, axr_f, Hc by auto using canon_axr_e4, x86_r2c_e4. reflexivity.
Qed.

Lemma iter_dqr_f n s t u w : length s = 16%nat -> length t = 16%nat -> length u = 16%nat -> length w = 16%nat ->
  iter_n n dqr_f1 (cols [s; t; u; w]) = cols (map (iter_n n double_round) [s; t; u; w]).
Proof.
  intros Hs Ht Hu Hw.
  apply (iter_cols double_round _ (fun l => exists s t u w, l = [s; t; u; w] /\ length s = 16%nat
     /\ length t = 16%nat /\ length u = 16%nat /\ length w = 16%nat)).
  - intros l (x & y & z & q & -> & Hx & Hy & Hz & Hq). apply dqr_f; assumption.
  - intros l (x & y & z & q & -> & Hx & Hy & Hz & Hq).
    exists (double_round x), (double_round y), (double_round z), (double_round q).
    split; [reflexivity|]. repeat split; apply double_round_wf; assumption.
  - exists s, t, u, w. auto.
Qed.

Definition avx512_regs (st : list N) : avx512_st :=
  {| avx512_state := [r0 st; r1 st; r2 st]; avx512_ctr := r3 st |}.

(** The four states of vector group [i]. *)
Definition grp (v : variant) (st : list N) (i : nat) : list (list N) :=
  map (fun j => adv v (N.of_nat (i * 4 + j)) st) (seq 0 4).

Lemma add_r3_32 k st : wf16 st -> mm_add_epi32 (r3 st) (mm_set_epi32 0 0 0 k) = r3 (adv Ietf k st).
Proof. exact (sse2_add_ctr_r3 Ietf k st). Qed.
Lemma add_r3_64 k st : wf16 st -> mm_add_epi64 (r3 st) (mm_set_epi64x 0 k) = r3 (adv Legacy k st).
Proof. exact (sse2_add_ctr_r3 Legacy k st). Qed.

Lemma avx512_incr_eq v k st : wf16 st ->
  avx512_increment_ctr v k (avx512_regs st) = avx512_regs (adv v (N.of_nat k) st).
Proof.
  intros H. assert (Hl : length st = 16%nat) by apply H.
  unfold avx512_increment_ctr, avx512_regs. cbn [avx512_state avx512_ctr].
  rewrite r0_adv, r1_adv, r2_adv by assumption. f_equal.
  destruct v; [apply add_r3_32 | apply add_r3_64]; assumption.
Qed.

Lemma avx512_ctrs_eq v nn st : wf16 st ->
  avx512_ctrs v nn (r3 st) = map (fun i => map r3 (grp v st i)) (seq 0 nn).
Proof.
  intros H. unfold avx512_ctrs. apply map_ext. intros i. unfold grp. cbn [seq map]. cbv zeta.
  unfold mm512_add_epi32, mm512_add_epi64, mm512_broadcast, mm512_set_epi32, mm512_set_epi64, avx512_BLOCKS_PER_VECTOR.
  destruct v; cbn [map2]; rewrite ?add_r3_32, ?add_r3_64 by assumption.
  all: replace (N.of_nat (i * 4) + 3) with (N.of_nat (i * 4 + 3)) by lia.
  all: replace (N.of_nat (i * 4) + 2) with (N.of_nat (i * 4 + 2)) by lia.
  all: replace (N.of_nat (i * 4) + 1) with (N.of_nat (i * 4 + 1)) by lia.
  all: rewrite (Nat.add_0_r (i * 4)); reflexivity.
Qed.

Lemma grp_length v st i : length st = 16%nat -> Forall (fun s => length s = 16%nat) (grp v st i).
Proof. intros H. unfold grp. cbn [map seq]. repeat constructor; rewrite adv_length; assumption. Qed.

Lemma grp_cols v st i : length st = 16%nat ->
  cols (grp v st i) = [mm512_broadcast (r0 st); mm512_broadcast (r1 st); mm512_broadcast (r2 st); map r3 (grp v st i)].
Proof.
  intros H. unfold grp, cols. cbn [map seq]. rewrite !r0_adv, !r1_adv, !r2_adv by assumption. reflexivity.
Qed.

Lemma map2_broadcast (f : m128 -> m128 -> m128) (v : m128) (r : list N -> m128) (l : list (list N)) :
  length l = 4%nat -> map2 f (map r l) (mm512_broadcast v) = map (fun s => f (r s) v) l.
Proof. intros H. destruct l as [|a [|b [|c [|d [|]]]]]; cbn in H; try discriminate. reflexivity. Qed.

Lemma avx512_rounds_eq v nn n st : wf16 st ->
  avx512_rounds nn n (map mm512_broadcast [r0 st; r1 st; r2 st]) (avx512_ctrs v nn (r3 st))
  = map (fun i => cols (map (run_rounds n) (grp v st i))) (seq 0 nn).
Proof.
  intros Hwf. assert (Hl : length st = 16%nat) by apply Hwf.
  rewrite avx512_ctrs_eq by assumption. unfold avx512_rounds. cbv zeta.
  match goal with |- context [iter_n n avx512_double_quarter_round ?l] =>
    assert (Ei : l = map (fun i => cols (grp v st i)) (seq 0 nn)) end.
  { apply map_ext_in. intros i Hi. apply in_seq in Hi. rewrite nth_map_seq by lia.
    rewrite grp_cols by assumption. reflexivity. }
  rewrite Ei. clear Ei. rewrite (iter_n_map _ dqr_f1) by apply avx512_dqr_map.
  rewrite map_ext with (g := fun i => cols (map (iter_n n double_round) (grp v st i))).
  2:{ intros i. unfold grp. cbn [seq map]. rewrite iter_dqr_f by (rewrite adv_length; assumption). reflexivity. }
  set (g := fun (i : nat) (e : list m512) =>
     upd (fold_left (fun e j => upd e j (mm512_add_epi32 (nth j e []) (nth j (map mm512_broadcast [r0 st; r1 st; r2 st]) [])))
            (seq 0 3) e) 3
         (mm512_add_epi32 (nth 3 (fold_left (fun e j => upd e j (mm512_add_epi32 (nth j e [])
             (nth j (map mm512_broadcast [r0 st; r1 st; r2 st]) []))) (seq 0 3) e) [])
            (nth i (map (fun i => map r3 (grp v st i)) (seq 0 nn)) []))).
  transitivity (fold_left (fun vs i => upd vs i (g i (nth i vs [])))
     (seq 0 nn) (map (fun i => cols (map (iter_n n double_round) (grp v st i))) (seq 0 nn))); [reflexivity|].
  rewrite fold_upd_seq by (rewrite map_length, seq_length; reflexivity).
  apply map_ext_in. intros i Hi. apply in_seq in Hi. rewrite nth_map_seq by lia.
  unfold g. rewrite nth_map_seq by lia. clear g.
  rewrite <- ff_cols by (apply grp_length; assumption).
  rewrite grp_cols by assumption.
  remember (map (iter_n n double_round) (grp v st i)) as ts.
  cbn [seq fold_left map upd nth cols]. reflexivity.
Qed.

(** The transposition network. *)
Lemma transpose_lanes (a b c d : list N) (A B C D : list (list N)) :
  A = [r0 a; r0 b; r0 c; r0 d] -> B = [r1 a; r1 b; r1 c; r1 d] ->
  C = [r2 a; r2 b; r2 c; r2 d] -> D = [r3 a; r3 b; r3 c; r3 d] ->
  length a = 16%nat -> length b = 16%nat -> length c = 16%nat -> length d = 16%nat ->
  avx512_transpose [A; B; C; D] = [rows a; rows b; rows c; rows d].
Proof.
  intros -> -> -> -> Ha Hb Hc Hd.
  assert (L0 : forall s, length s = 16%nat -> exists x y z w, r0 s = [x; y; z; w]) by (intros s Hs; destr16 s Hs; cbv; eauto).
  assert (L1 : forall s, length s = 16%nat -> exists x y z w, r1 s = [x; y; z; w]) by (intros s Hs; destr16 s Hs; cbv; eauto).
  assert (L2 : forall s, length s = 16%nat -> exists x y z w, r2 s = [x; y; z; w]) by (intros s Hs; destr16 s Hs; cbv; eauto).
  assert (L3 : forall s, length s = 16%nat -> exists x y z w, r3 s = [x; y; z; w]) by (intros s Hs; destr16 s Hs; cbv; eauto).
  unfold rows.
  repeat match goal with
  | H : length ?s = 16%nat |- _ =>
      destruct (L0 s H) as (? & ? & ? & ? & ->), (L1 s H) as (? & ? & ? & ? & ->),
               (L2 s H) as (? & ? & ? & ? & ->), (L3 s H) as (? & ? & ? & ? & ->); clear H
  end.
  reflexivity.
Qed.

Lemma nth_map_rows {A} (f : list N -> A) l i d : (i < length l)%nat -> nth i (map f l) d = f (nth i l []).
Proof. intros H. rewrite nth_indep with (d' := f []) by (rewrite map_length; assumption). apply map_nth. Qed.

Lemma avx512_full_ok v nn n len st : wf16 st -> (len <= nn * 4)%nat ->
  avx512_gen_blocks_fullwidth v nn n len (avx512_regs st)
  = Ok (blocks_from v n len st, avx512_regs (adv v (N.of_nat len) st)).
Proof.
  intros H Hlen. assert (Hl : length st = 16%nat) by apply H.
  unfold avx512_gen_blocks_fullwidth, avx512_BLOCKS_PER_VECTOR.
  replace (len <=? nn * 4)%nat with true by lia. cbn [assert_ bind]. cbv zeta.
  cbn [avx512_regs avx512_ctr avx512_state avx512_increment_ctr].
  rewrite avx512_rounds_eq by assumption. f_equal. f_equal.
  - rewrite flat_map_ext_in' with (g := fun i => flat_map (fun j =>
      (fun k => if (k <? len)%nat then bytes_of_words (run_rounds n (adv v (N.of_nat k) st)) else []) (i * 4 + j)%nat) (seq 0 4)).
    + rewrite (flat_map_nest (fun k => if (k <? len)%nat
        then bytes_of_words (run_rounds n (adv v (N.of_nat k) st)) else [])).
      apply flat_map_guard. assumption.
    + intros i Hi. apply in_seq in Hi. rewrite nth_map_seq by lia.
      apply flat_map_ext_in'. intros j Hj. apply in_seq in Hj. cbv beta.
      destruct (i * 4 + j <? len)%nat; [|reflexivity]. f_equal.
      assert (E : forall k, length (run_rounds n (adv v k st)) = 16%nat).
      { intros k. apply run_rounds_length. rewrite adv_length. assumption. }
      unfold grp. cbn [seq map]. unfold cols. cbn [map].
      rewrite (transpose_lanes _ _ _ _ _ _ _ _ eq_refl eq_refl eq_refl eq_refl) by apply E.
      assert (Hj' : j = 0%nat \/ j = 1%nat \/ j = 2%nat \/ j = 3%nat) by lia.
      destruct Hj' as [->|[->|[->| ->]]]; cbn [nth]; apply rows_concat; apply E.
  - apply avx512_incr_eq. assumption.
Qed.

Lemma half_lanes (a b : list N) : length a = 16%nat -> length b = 16%nat ->
  let r := cols [a; b] in
  mm256_permutex2var_epi64 (nth 0 r []) [0; 1; 4; 5] (nth 1 r []) = [r0 a; r1 a] /\
  mm256_permutex2var_epi64 (nth 2 r []) [0; 1; 4; 5] (nth 3 r []) = [r2 a; r3 a] /\
  mm256_permutex2var_epi64 (nth 0 r []) [2; 3; 6; 7] (nth 1 r []) = [r0 b; r1 b] /\
  mm256_permutex2var_epi64 (nth 2 r []) [2; 3; 6; 7] (nth 3 r []) = [r2 b; r3 b].
Proof. intros Ha Hb. destr16 a Ha. destr16 b Hb. repeat split; reflexivity. Qed.

Lemma avx512_half_ok v n len st : wf16 st -> (len <= 2)%nat ->
  avx512_gen_blocks_halfwidth v n len (avx512_regs st)
  = Ok (blocks_from v n len st, avx512_regs (adv v (N.of_nat len) st)).
Proof.
  intros H Hlen. assert (Hl : length st = 16%nat) by apply H.
  unfold avx512_gen_blocks_halfwidth. replace (len <=? 2)%nat with true by lia. cbn [assert_ bind]. cbv zeta.
  cbn [avx512_regs avx512_ctr avx512_state avx512_increment_ctr].
  match goal with |- context [avx512_rounds_halfwide n ?l] =>
    assert (Ei : l = cols [adv v 0 st; adv v 1 st]) end.
  { unfold cols. cbn [map nth]. rewrite !r0_adv, !r1_adv, !r2_adv by assumption. unfold mm256_broadcast.
    do 4 f_equal. unfold mm256_set_epi32, mm256_set_epi64x, mm256_add_epi32, mm256_add_epi64.
    destruct v; cbn [map2]; rewrite ?add_r3_32, ?add_r3_64 by assumption; reflexivity. }
  rewrite Ei. clear Ei. rewrite rounds_h by (rewrite adv_length; assumption).
  assert (E : forall k, length (run_rounds n (adv v k st)) = 16%nat).
  { intros k. apply run_rounds_length. rewrite adv_length. assumption. }
  pose proof (half_lanes (run_rounds n (adv v 0 st)) (run_rounds n (adv v 1 st)) (E _) (E _)) as (E1 & E2 & E3 & E4).
  cbv zeta in E1, E2, E3, E4. rewrite E1, E2, E3, E4. clear E1 E2 E3 E4. f_equal. f_equal.
  - rewrite flat_map_ext_in' with (g := fun k => if (k <? len)%nat then bytes_of_words (run_rounds n (adv v (N.of_nat k) st)) else []).
    + apply flat_map_guard. assumption.
    + intros i Hi. apply in_seq in Hi. destruct (i <? len)%nat; [|reflexivity].
      assert (Hi' : i = 0%nat \/ i = 1%nat) by lia.
      destruct Hi' as [->| ->]; cbn [nth concat]; rewrite !app_nil_r, !bytes_of_words_app, <- !app_assoc;
        apply rows_bytes; apply E.
  - apply avx512_incr_eq. assumption.
Qed.

Lemma avx512_one_ok v n st : wf16 st ->
  avx512_gen_ks_block v n (avx512_regs st) = (blocks_from v n 1 st, avx512_regs (adv v 1 st)).
Proof.
  intros H. assert (Hl : length st = 16%nat) by apply H. unfold avx512_gen_ks_block. cbv zeta.
  cbn [avx512_regs avx512_ctr avx512_state avx512_increment_ctr nth].
  change [r0 st; r1 st; r2 st; r3 st] with (rows st). rewrite rounds_q by assumption. f_equal.
  - rewrite blocks_from_1 by assumption. rewrite <- store_rows by (apply run_rounds_length; assumption). reflexivity.
  - apply avx512_incr_eq. assumption.
Qed.

Lemma avx512_par_ok v n st : wf16 st ->
  avx512_gen_par_ks_blocks v n (avx512_regs st) = Ok (blocks_from v n 16 st, avx512_regs (adv v 16 st)).
Proof. intros H. apply (avx512_full_ok v 4 n 16); [assumption | lia]. Qed.

Lemma avx512_tail_ok v n k st : wf16 st -> (k < 16)%nat ->
  avx512_gen_tail_blocks v n k (avx512_regs st) = Ok (blocks_from v n k st, avx512_regs (adv v (N.of_nat k) st)).
Proof.
  intros H Hk. unfold avx512_gen_tail_blocks, avx512_MAX_PAR_BLOCKS.
  replace (k <? 16)%nat with true by lia. cbn [assert_ bind].
  destruct (Nat.eqb_spec k 0) as [->|H0].
  { change (N.of_nat 0) with 0. rewrite adv_0 by assumption. reflexivity. }
  destruct (Nat.eqb_spec k 1) as [->|H1].
  { change (N.of_nat 1) with 1. rewrite avx512_one_ok by assumption. reflexivity. }
  destruct (Nat.eqb_spec k 2) as [->|H2].
  { apply avx512_half_ok; [assumption | lia]. }
  destruct (Nat.leb_spec k 4); [apply avx512_full_ok; [assumption | lia]|].
  destruct (Nat.leb_spec k 8); [apply avx512_full_ok; [assumption | lia]|].
  apply avx512_full_ok; [assumption | unfold avx512_MAX_N; lia].
Qed.

Lemma avx512_inner_ok v n f st : wf16 st -> forallb (req_ok 16) f = true ->
  avx512_inner v n f st = Ok (blocks_from v n (reqs_blocks 16 f) st, adv v (N.of_nat (reqs_blocks 16 f)) st).
Proof.
  intros Hwf Hok. unfold avx512_inner. change (avx512_load st) with (avx512_regs st).
  set (R := fun b st => b = avx512_regs st).
  destruct (run_reqs_refines (avx512_backend v n) v n R) with (l := f) (b := avx512_regs st) (st := st)
    as [b' [E HR]]; try assumption.
  - intros b s Hs ->. eexists. split; [apply avx512_one_ok; assumption|reflexivity].
  - intros b s Hs ->. eexists. split; [|reflexivity]. cbn [gen_par avx512_backend].
    rewrite avx512_par_ok by assumption. reflexivity.
  - intros b s k Hs -> Hk. eexists. split; [|reflexivity]. apply avx512_tail_ok; assumption.
  - reflexivity.
  - rewrite E. cbn [bind par_blocks avx512_backend]. unfold R in HR. rewrite HR.
    change (par_blocks (avx512_backend v n)) with 16%nat. unfold avx512_MAX_PAR_BLOCKS.
    do 2 f_equal. pose proof (store_ctr v (N.of_nat (reqs_blocks 16 f)) st (proj1 Hwf)) as Hs.
    destruct v; exact Hs.
Qed.
