(** The pointer code of the SIMD backends stays in bounds and fills exactly its buffers. *)
From Verif Require Import Word WordLemmas Res Simd ChaChaCore ChaChaBackend ChaChaSoft ChaChaProofs SimdProofs
  ChaChaSse2Proofs ChaChaAvx2Proofs ChaChaAvx512Proofs ChaChaNeonProofs Memory.
From Coq Require Import ZArith Lia ZifyBool ZifyNat ZifyN.
Ltac Zify.zify_post_hook ::= Z.div_mod_to_equations.

(** ** Writing into a memory *)
Lemma put_length m o bs : (o + length bs <= length m)%nat -> length (put m o bs) = length m.
Proof. intros H. unfold put. rewrite !app_length, firstn_length, skipn_length. lia. Qed.
Lemma skipn_skipn' {A} i j (l : list A) : skipn i (skipn j l) = skipn (i + j) l.
Proof.
  revert l; induction j as [|j IH]; intros l; [rewrite Nat.add_0_r; reflexivity|].
  destruct l as [|x l]; [rewrite !skipn_nil; reflexivity|].
  rewrite Nat.add_succ_r. cbn [skipn]. apply IH.
Qed.
Lemma put_app m o a b : (o + length a <= length m)%nat ->
  put (put m o a) (o + length a) b = put m o (a ++ b).
Proof.
  intros H. unfold put.
  assert (E : length (firstn o m ++ a) = (o + length a)%nat) by (rewrite app_length, firstn_length; lia).
  rewrite (app_assoc (firstn o m) a). rewrite firstn_app, E, Nat.sub_diag, firstn_O, app_nil_r.
  rewrite firstn_all2 by lia. rewrite skipn_app, E.
  rewrite (skipn_all2 (firstn o m ++ a)) by lia. cbn [app]. rewrite skipn_skipn', app_length.
  rewrite <- !app_assoc. do 4 f_equal. lia.
Qed.
Lemma put_nil m o : put m o [] = m.
Proof. unfold put. cbn [app length]. rewrite Nat.add_0_r. apply firstn_skipn. Qed.
Lemma put_all m bs : length bs = length m -> put m 0 bs = bs.
Proof. intros H. unfold put. cbn [firstn app Nat.add]. rewrite H, skipn_all, app_nil_r. reflexivity. Qed.
Lemma put_mid A X C bs o : o = length A -> length X = length bs -> put (A ++ X ++ C) o bs = A ++ bs ++ C.
Proof.
  intros -> H. unfold put. rewrite firstn_app, Nat.sub_diag, firstn_O, app_nil_r, firstn_all. f_equal. f_equal.
  rewrite skipn_app, skipn_all2 by lia. cbn [app]. replace (length A + length bs - length A)%nat with (length X) by lia.
  rewrite skipn_app, skipn_all, Nat.sub_diag. reflexivity.
Qed.
Lemma split_at {A} k (l : list A) : (k <= length l)%nat -> exists a b, l = a ++ b /\ length a = k.
Proof. intros H. exists (firstn k l), (skipn k l). split; [symmetry; apply firstn_skipn | rewrite firstn_length; lia]. Qed.
Lemma put_comm m o1 a o2 b : (o1 + length a <= o2)%nat -> (o2 + length b <= length m)%nat ->
  put (put m o2 b) o1 a = put (put m o1 a) o2 b.
Proof.
  intros H1 H2. destruct (split_at o1 m) as (A & m1 & -> & LA); [lia|]. rewrite app_length in H2.
  destruct (split_at (length a) m1) as (X & m2 & -> & LX); [lia|]. rewrite app_length in H2.
  destruct (split_at (o2 - o1 - length a) m2) as (B & m3 & -> & LB); [lia|]. rewrite app_length in H2.
  destruct (split_at (length b) m3) as (Y & C & -> & LY); [lia|].
  rewrite (put_mid A X (B ++ Y ++ C) a o1) by lia.
  replace (A ++ X ++ B ++ Y ++ C) with ((A ++ X ++ B) ++ Y ++ C) by (rewrite <- !app_assoc; reflexivity).
  rewrite (put_mid (A ++ X ++ B) Y C b o2) by (rewrite ?app_length; lia).
  replace (A ++ a ++ B ++ Y ++ C) with ((A ++ a ++ B) ++ Y ++ C) by (rewrite <- !app_assoc; reflexivity).
  rewrite (put_mid (A ++ a ++ B) Y C b o2) by (rewrite ?app_length; lia).
  rewrite <- !app_assoc. apply put_mid; lia.
Qed.

Lemma p_store_ok m p bs : (p_lo p <= p_off p)%nat -> (p_off p + length bs <= p_hi p)%nat -> (p_hi p <= length m)%nat ->
  p_store m p bs = Ok (put m (p_off p) bs).
Proof.
  intros H1 H2 H3. unfold p_store, in_bounds.
  replace _ with true by (symmetry; rewrite !andb_true_iff, !Nat.leb_le; auto). reflexivity.
Qed.
Lemma p_add_ok p k : (p_lo p <= p_off p)%nat -> (p_off p + k * p_esz p <= p_hi p)%nat ->
  p_add p k = Ok {| p_lo := p_lo p; p_hi := p_hi p; p_off := p_off p + k * p_esz p; p_esz := p_esz p |}.
Proof.
  intros H1 H2. unfold p_add. cbv zeta.
  replace ((p_lo p <=? p_off p + k * p_esz p)%nat && (p_off p + k * p_esz p <=? p_hi p)%nat) with true; [reflexivity|].
  symmetry. rewrite andb_true_iff, !Nat.leb_le. lia.
Qed.
Lemma element_ok m sz i esz : ((i + 1) * sz <= length m)%nat ->
  element m sz i esz = Ok {| p_lo := i * sz; p_hi := (i + 1) * sz; p_off := i * sz; p_esz := esz |}.
Proof. intros H. unfold element. apply Nat.leb_le in H. rewrite H. reflexivity. Qed.

(** A loop whose iteration [i] writes [B i] right after the previous ones. *)
Lemma for_put (f : nat -> list N -> Res (list N)) (B : nat -> list N) o w L :
  (forall i m, (o + (i + 1) * w <= L)%nat -> length m = L -> f i m = Ok (put m (o + i * w) (B i))) ->
  forall k, (o + k * w <= L)%nat -> (forall i, (i < k)%nat -> length (B i) = w) ->
  forall m, length m = L -> for_ (seq 0 k) f m = Ok (put m o (flat_map B (seq 0 k))).
Proof.
  intros Hf k. induction k as [|k IH]; intros Hk HB m Hm.
  - cbn [seq for_ flat_map]. rewrite put_nil. reflexivity.
  - rewrite seq_S, for_app, flat_map_app. cbn [Nat.add].
    rewrite IH by (try assumption; try lia; intros; apply HB; lia). cbn [bind for_ flat_map].
    assert (EL : length (flat_map B (seq 0 k)) = (k * w)%nat).
    { assert (HB' : forall i, (i < k)%nat -> length (B i) = w) by (intros; apply HB; lia).
      clear - HB'. induction k as [|k IH]; [reflexivity|].
      rewrite seq_S, flat_map_app, app_length. cbn [Nat.add flat_map]. rewrite app_nil_r, HB' by lia.
      rewrite IH by (intros; apply HB'; lia). lia. }
    rewrite Hf; [|lia| rewrite put_length; [assumption | lia]].
    cbn [bind for_]. rewrite app_nil_r. f_equal. rewrite <- EL. apply put_app. lia.
Qed.

(** ** Loads *)
Lemma load_row st i : wf16 st -> (i < 4)%nat -> forall esz,
  load128 (bytes_of_words st) {| p_lo := 0; p_hi := 64; p_off := 16 * i; p_esz := esz |} = Ok (nth i (rows st) []).
Proof.
  intros [Hl Hw] Hi esz. unfold load128, p_load, in_bounds. cbn [p_lo p_hi p_off].
  rewrite bytes_of_words_length, Hl.
  replace ((0 <=? 16 * i) && (16 * i + 16 <=? 64) && (64 <=? 4 * 16))%nat%bool with true
    by (symmetry; rewrite !andb_true_iff, !Nat.leb_le; lia).
  cbn [bind]. f_equal. destr16 st Hl. unfold words in Hw. inv_forall. unfold W32 in *.
  do 4 (destruct i as [|i];
    [ match goal with |- words_of_bytes ?x = ?y => change x with (bytes_of_words y) end;
      apply words_of_bytes_of_words; repeat constructor; assumption |]). lia.
Qed.

Ltac padd := rewrite p_add_ok by (cbn [p_lo p_hi p_off p_esz]; lia); cbn [bind p_lo p_hi p_off p_esz].

Lemma whole_state st esz : wf16 st -> whole (bytes_of_words st) esz = {| p_lo := 0; p_hi := 64; p_off := 0; p_esz := esz |}.
Proof. intros [Hl _]. unfold whole. rewrite bytes_of_words_length, Hl. reflexivity. Qed.

Lemma sse2_load_mem_ok st : wf16 st -> sse2_load_mem st = Ok (rows st).
Proof.
  intros H. unfold sse2_load_mem. cbv zeta. rewrite whole_state by assumption.
  padd. change (0 + 0 * 16)%nat with (16 * 0)%nat. rewrite load_row by (try assumption; lia). cbn [bind].
  padd. change (0 + 1 * 16)%nat with (16 * 1)%nat. rewrite load_row by (try assumption; lia). cbn [bind].
  padd. change (0 + 2 * 16)%nat with (16 * 2)%nat. rewrite load_row by (try assumption; lia). cbn [bind].
  padd. change (0 + 3 * 16)%nat with (16 * 3)%nat. rewrite load_row by (try assumption; lia). reflexivity.
Qed.
Lemma avx2_load_mem_ok st : wf16 st -> avx2_load_rows_mem st = Ok (rows st).
Proof. exact (sse2_load_mem_ok st). Qed.
Lemma load4_ok {A} (k : list m128 -> Res A) st : wf16 st ->
  (do p0 <- p_add (whole (bytes_of_words st) 4) 0; do v0 <- load128 (bytes_of_words st) p0;
   do p1 <- p_add (whole (bytes_of_words st) 4) 4; do v1 <- load128 (bytes_of_words st) p1;
   do p2 <- p_add (whole (bytes_of_words st) 4) 8; do v2 <- load128 (bytes_of_words st) p2;
   do p3 <- p_add (whole (bytes_of_words st) 4) 12; do v3 <- load128 (bytes_of_words st) p3;
   k [v0; v1; v2; v3]) = k (rows st).
Proof.
  intros H. rewrite whole_state by assumption.
  padd. change (0 + 0 * 4)%nat with (16 * 0)%nat. rewrite load_row by (try assumption; lia). cbn [bind].
  padd. change (0 + 4 * 4)%nat with (16 * 1)%nat. rewrite load_row by (try assumption; lia). cbn [bind].
  padd. change (0 + 8 * 4)%nat with (16 * 2)%nat. rewrite load_row by (try assumption; lia). cbn [bind].
  padd. change (0 + 12 * 4)%nat with (16 * 3)%nat. rewrite load_row by (try assumption; lia). reflexivity.
Qed.
Lemma avx512_load_mem_ok st : wf16 st -> avx512_load_mem st = Ok (avx512_regs st).
Proof.
  intros H. unfold avx512_load_mem. cbv zeta.
  pose proof (load4_ok (fun l => Ok {| avx512_state := firstn 3 l; avx512_ctr := nth 3 l [] |}) st H) as E.
  cbn [firstn nth] in E. rewrite (p_add_ok _ 0) in E by (cbn [whole p_lo p_hi p_off p_esz]; lia).
  cbn [bind] in E. exact E.
Qed.
Lemma neon_new_mem_ok st : wf16 st -> neon_new_mem st = Ok (neon_regs st).
Proof.
  intros H. unfold neon_new_mem. cbv zeta.
  exact (load4_ok (fun l => Ok {| neon_state := l; neon_ctrs := neon_ctrs (neon_new st) |}) st H).
Qed.

(** ** Generic lift from requests to closures *)
Section Lift.
  Context {B : Type} (be : mbackend B) (v : variant) (n : nat) (R : B -> list N -> Prop).
  Hypothesis Hone : forall b st mem, wf16 st -> R b st -> length mem = 64%nat ->
    exists b', m_one be b mem = Ok (blocks_from v n 1 st, b') /\ R b' (adv v 1 st).
  Lemma m_default_tail_ok k b st mem : wf16 st -> R b st -> (k < m_par be)%nat -> length mem = (64 * k)%nat ->
    exists b', m_default_tail (m_par be) (m_one be) k b mem = Ok (blocks_from v n k st, b')
               /\ R b' (adv v (N.of_nat k) st).
  Proof.
    intros Hwf HR Hk Hm. unfold m_default_tail. apply Nat.ltb_lt in Hk. rewrite Hk. cbn [assert_ bind].
    clear Hk. revert b st mem Hwf HR Hm; induction k as [|k IH]; intros b st mem Hwf HR Hm.
    - exists b. cbn [m_ones]. destruct mem; [|discriminate Hm]. split; [reflexivity|].
      change (N.of_nat 0) with 0. rewrite adv_0; assumption.
    - destruct (Hone b st (firstn 64 mem) Hwf HR) as [b1 [E1 R1]]; [rewrite firstn_length; lia|].
      destruct (IH b1 (adv v 1 st) (skipn 64 mem)) as [b2 [E2 R2]];
        [apply adv_wf; assumption | assumption | rewrite skipn_length; lia|].
      exists b2. cbn [m_ones]. rewrite E1. cbn [bind]. rewrite E2. cbn [bind]. split.
      + change (S k) with (1 + k)%nat. rewrite (blocks_from_add v n 1 k st Hwf). reflexivity.
      + rewrite adv_add in R2 by assumption. replace (N.of_nat (S k)) with (1 + N.of_nat k) by lia. assumption.
  Qed.
  Hypothesis Hpar : forall b st mem, wf16 st -> R b st -> length mem = (64 * m_par be)%nat ->
    exists b', m_many be b mem = Ok (blocks_from v n (m_par be) st, b') /\ R b' (adv v (N.of_nat (m_par be)) st).
  Hypothesis Htail : forall b st k mem, wf16 st -> R b st -> (k < m_par be)%nat -> length mem = (64 * k)%nat ->
    exists b', m_tail be k b mem = Ok (blocks_from v n k st, b') /\ R b' (adv v (N.of_nat k) st).
  Lemma m_run_ok l : forall b st, wf16 st -> R b st ->
    forallb (req_ok (m_par be)) (map fst l) = true -> buffers_fit (m_par be) l ->
    exists bufs b', m_run be l b = Ok (bufs, b')
      /\ concat bufs = blocks_from v n (reqs_blocks (m_par be) (map fst l)) st
      /\ map (@length N) bufs = map (fun x => length (snd x)) l
      /\ R b' (adv v (N.of_nat (reqs_blocks (m_par be) (map fst l))) st).
  Proof.
    induction l as [|[r mem] l IH]; intros b st Hwf HR Hok Hfit.
    - exists [], b. cbn [m_run map reqs_blocks fold_right concat]. split; [reflexivity|]. split; [reflexivity|].
      split; [reflexivity|]. change (N.of_nat 0) with 0. rewrite adv_0; assumption.
    - cbn [map fst forallb] in Hok. apply andb_true_iff in Hok. destruct Hok as [Hr Hok].
      inversion Hfit as [|? ? Hmem Hfit']; subst. cbn [fst snd] in Hmem.
      assert (H1 : exists b1, match r with
                   | One => m_one be b mem
                   | Par => m_many be b mem
                   | Tail n => m_tail be n b mem
                   end = Ok (blocks_from v n (req_blocks (m_par be) r) st, b1)
                   /\ R b1 (adv v (N.of_nat (req_blocks (m_par be) r)) st)).
      { destruct r as [| |k]; cbn [req_blocks] in *.
        - apply Hone; assumption.
        - apply Hpar; assumption.
        - apply Htail; try assumption. apply Nat.ltb_lt. exact Hr. }
      destruct H1 as [b1 [E1 R1]].
      destruct (IH b1 _ (adv_wf v _ _ Hwf) R1 Hok Hfit') as (bufs & b2 & E2 & E3 & E4 & R2).
      exists (blocks_from v n (req_blocks (m_par be) r) st :: bufs), b2. cbn [m_run]. rewrite E1. cbn [bind]. rewrite E2.
      cbn [bind]. split; [reflexivity|].
      cbn [map fst concat]. change (reqs_blocks (m_par be) (r :: map fst l))
        with (req_blocks (m_par be) r + reqs_blocks (m_par be) (map fst l))%nat.
      rewrite E3, blocks_from_add by assumption. split; [reflexivity|].
      rewrite E4, blocks_from_length by assumption. cbn [snd]. rewrite Hmem. split; [reflexivity|].
      rewrite adv_add in R2 by assumption. rewrite Nat2N.inj_add. assumption.
  Qed.
End Lift.

(** ** Storing the rows of a state *)
Lemma row_bytes_length s i : length s = 16%nat -> (i < 4)%nat -> length (bytes_of_words (nth i (rows s) [])) = 16%nat.
Proof.
  intros H Hi. rewrite bytes_of_words_length. destr16 s H. do 4 (destruct i as [|i]; [reflexivity|]). lia.
Qed.
Lemma rr_length v n k st : wf16 st -> length (run_rounds n (adv v k st)) = 16%nat.
Proof. intros H. apply run_rounds_length. rewrite adv_length. apply H. Qed.

(** Four 16-byte stores [p.add(i)] into a block at [p]. *)
Lemma store4_ok (f : nat -> list N -> Res (list N)) s o L : length s = 16%nat ->
  (forall i m, (i < 4)%nat -> length m = L ->
     f i m = Ok (put m (o + i * 16) (bytes_of_words (nth i (rows s) [])))) ->
  (o + 64 <= L)%nat -> forall m, length m = L ->
  for_ (seq 0 4) f m = Ok (put m o (bytes_of_words s)).
Proof.
  intros Hs Hf HL m Hm. cbn [seq for_].
  assert (Q : forall i, (i < 4)%nat -> length (bytes_of_words (nth i (rows s) [])) = 16%nat)
    by (intros; apply row_bytes_length; assumption).
  assert (P : forall m i, length m = L -> (i < 4)%nat -> length (put m (o + i * 16) (bytes_of_words (nth i (rows s) []))) = L).
  { intros m' i Hm' Hi. rewrite put_length; [assumption|]. rewrite Q by assumption. lia. }
  rewrite Hf by first [lia | assumption]. cbn [bind].
  rewrite Hf by first [lia | apply P; first [assumption|lia]]. cbn [bind].
  rewrite Hf by first [lia | repeat (apply P; [|lia]); assumption]. cbn [bind].
  rewrite Hf by first [lia | repeat (apply P; [|lia]); assumption]. cbn [bind].
  f_equal. rewrite <- (rows_bytes s) by assumption.
  change (r0 s) with (nth 0 (rows s) []). change (r1 s) with (nth 1 (rows s) []).
  change (r2 s) with (nth 2 (rows s) []). change (r3 s) with (nth 3 (rows s) []).
  pose proof (Q 0%nat ltac:(lia)) as Q0. pose proof (Q 1%nat ltac:(lia)) as Q1. pose proof (Q 2%nat ltac:(lia)) as Q2.
  remember (bytes_of_words (nth 0 (rows s) [])) as b0. remember (bytes_of_words (nth 1 (rows s) [])) as b1.
  remember (bytes_of_words (nth 2 (rows s) [])) as b2. remember (bytes_of_words (nth 3 (rows s) [])) as b3.
  replace (o + 0 * 16)%nat with o by lia.
  replace (o + 1 * 16)%nat with (o + length b0)%nat by lia. rewrite put_app by lia.
  replace (o + 2 * 16)%nat with (o + length (b0 ++ b1))%nat by (rewrite app_length; lia).
  rewrite put_app by (rewrite app_length; lia).
  replace (o + 3 * 16)%nat with (o + length ((b0 ++ b1) ++ b2))%nat by (rewrite !app_length; lia).
  rewrite put_app by (rewrite !app_length; lia). rewrite <- !app_assoc. reflexivity.
Qed.

Lemma store_blocks_ok (f : nat -> list N -> Res (list N)) v n k st :
  wf16 st ->
  (forall i m, (i < k)%nat -> length m = (64 * k)%nat ->
     f i m = Ok (put m (i * 64) (bytes_of_words (run_rounds n (adv v (N.of_nat i) st))))) ->
  forall m, length m = (64 * k)%nat -> for_ (seq 0 k) f m = Ok (blocks_from v n k st).
Proof.
  intros Hwf Hf m Hm.
  rewrite (for_put f (fun i => bytes_of_words (run_rounds n (adv v (N.of_nat i) st))) 0 64 (64 * k)).
  - f_equal. apply put_all. change (flat_map _ (seq 0 k)) with (blocks_from v n k st).
    rewrite blocks_from_length, Hm by assumption. reflexivity.
  - intros i m' Hi Hm'. rewrite Hf by (try assumption; lia). reflexivity.
  - lia.
  - intros i Hi. rewrite bytes_of_words_length, rr_length by assumption. reflexivity.
  - assumption.
Qed.

(** ** SSE2 *)
Lemma sse2_one_mem_ok v n st mem : wf16 st -> length mem = 64%nat ->
  sse2_one_mem v n (rows st) mem = Ok (blocks_from v n 1 st, rows (adv v 1 st)).
Proof.
  intros H Hm. pose proof (sse2_one_ok v n st H) as E. unfold sse2_gen_ks_block in E. unfold sse2_one_mem.
  cbv zeta in *. apply (f_equal snd) in E. cbn [snd] in E. rewrite E. clear E. rewrite sse2_rounds_eq by assumption.
  rewrite nth_map_seq by lia. change (N.of_nat 0) with 0. rewrite adv_0 by assumption.
  assert (Hs : length (run_rounds n st) = 16%nat) by (apply run_rounds_length, H).
  rewrite (store4_ok _ (run_rounds n st) 0 64); try assumption; try lia.
  - cbn [bind]. rewrite put_all by (rewrite bytes_of_words_length, Hs, Hm; reflexivity).
    rewrite blocks_from_1 by assumption. reflexivity.
  - intros i m Hi Hm'. unfold whole. padd. rewrite p_store_ok; cbn [p_lo p_hi p_off]; try lia.
    + reflexivity.
    + unfold mm_storeu. rewrite row_bytes_length by assumption. lia.
Qed.

Lemma sse2_store_par_ok v n st mem : wf16 st -> length mem = 256%nat ->
  sse2_store_par (map (fun i => rows (run_rounds n (adv v (N.of_nat i) st))) (seq 0 4)) mem
  = Ok (blocks_from v n 4 st).
Proof.
  intros H Hm. unfold sse2_store_par, sse2_PAR_BLOCKS. cbv zeta.
  apply store_blocks_ok; [assumption | | assumption].
  intros b m Hb Hm'. rewrite nth_map_seq by assumption.
  apply (store4_ok _ _ _ 256); try lia; try assumption; [apply rr_length; assumption|].
  intros i m2 Hi Hm2. unfold whole. padd. rewrite p_store_ok; cbn [p_lo p_hi p_off]; try lia.
  - do 2 f_equal. lia.
  - unfold mm_storeu. rewrite row_bytes_length by (try apply rr_length; assumption). lia.
Qed.
Lemma sse2_par_mem_ok v n st mem : wf16 st -> length mem = 256%nat ->
  sse2_par_mem v n (rows st) mem = Ok (blocks_from v n 4 st, rows (adv v 4 st)).
Proof.
  intros H Hm. pose proof (sse2_par_ok v n st H) as E. unfold sse2_gen_par_ks_blocks in E. unfold sse2_par_mem.
  cbv zeta in *. apply (f_equal snd) in E. cbn [snd] in E. rewrite E. clear E.
  rewrite sse2_rounds_eq, sse2_store_par_ok by assumption. reflexivity.
Qed.
Lemma sse2_inner_mem_ok v n l st : wf16 st -> forallb (req_ok 4) (map fst l) = true -> buffers_fit 4 l ->
  exists bufs st', sse2_inner_mem v n l st = Ok (bufs, st')
    /\ map (@length N) bufs = map (fun x => length (snd x)) l
    /\ sse2_inner v n (map fst l) st = Ok (concat bufs, st').
Proof.
  intros Hwf Hok Hfit. rewrite sse2_inner_ok by assumption. unfold sse2_inner_mem.
  rewrite sse2_load_mem_ok by assumption. cbn [bind].
  set (R := fun (b : list m128) st => b = rows st).
  assert (Hone : forall b st mem, wf16 st -> R b st -> length mem = 64%nat ->
    exists b', m_one (sse2_mbackend v n) b mem = Ok (blocks_from v n 1 st, b') /\ R b' (adv v 1 st)).
  { intros b s mem Hs -> Hm. eexists. split; [apply sse2_one_mem_ok; assumption|reflexivity]. }
  destruct (m_run_ok (sse2_mbackend v n) v n R Hone) with (l := l) (b := rows st) (st := st)
    as (bufs & b' & E & E1 & E2 & HR); try assumption.
  - intros b s mem Hs -> Hm. eexists. split; [apply sse2_par_mem_ok; assumption|reflexivity].
  - intros b s k mem Hs HR Hk Hm. apply (m_default_tail_ok (sse2_mbackend v n) v n R Hone); assumption.
  - reflexivity.
  - change (m_par (sse2_mbackend v n)) with 4%nat in *.
    rewrite E. cbn [bind]. unfold R in HR. rewrite HR. do 2 eexists. split; [reflexivity|].
    split; [assumption|]. rewrite E1. do 2 f_equal. symmetry.
    pose proof (store_ctr v (N.of_nat (reqs_blocks 4 (map fst l))) st (proj1 Hwf)) as Hs.
    destruct v; exact Hs.
Qed.
Lemma blocks_words v n k st : wf16 st -> words_of_bytes (blocks_from v n k st) = words_from v n k st.
Proof.
  intros H. assert (E : blocks_from v n k st = bytes_of_words (words_from v n k st)).
  { unfold blocks_from, words_from. generalize (seq 0 k) as l. induction l as [|i l IH]; [reflexivity|].
    cbn [flat_map]. rewrite bytes_of_words_app, IH. reflexivity. }
  rewrite E. apply words_of_bytes_of_words. unfold words_from. generalize (seq 0 k) as l.
  induction l as [|i l IH]; [constructor|]. cbn [flat_map]. apply Forall_app. split; [|exact IH].
  apply run_rounds_wf, adv_wf. assumption.
Qed.
Lemma sse2_rng_mem_ok v n st mem : wf16 st -> length mem = 256%nat ->
  exists mem', sse2_rng_inner_mem v n st mem = Ok (mem', snd (sse2_rng_inner v n st))
    /\ length mem' = 256%nat /\ words_of_bytes mem' = fst (sse2_rng_inner v n st).
Proof.
  intros H Hm. unfold sse2_rng_inner_mem, sse2_rng_inner. rewrite sse2_load_mem_ok by assumption. cbn [bind fst snd].
  change (sse2_load st) with (rows st). cbv zeta. rewrite sse2_rounds_eq, sse2_store_par_ok by assumption. cbn [bind].
  eexists. split; [reflexivity|]. split; [rewrite blocks_from_length by assumption; reflexivity|].
  rewrite blocks_words by assumption. unfold words_from. apply flat_map_ext_in'. intros i Hi. apply in_seq in Hi.
  rewrite nth_map_seq by (unfold sse2_PAR_BLOCKS in *; lia). cbn [flat_map seq nth rows].
  rewrite app_nil_r. symmetry. apply rows_words. apply rr_length. assumption.
Qed.

(** ** AVX2 *)
Lemma interleave_step m o w A B a b : length A = length B -> (o + length A + length a <= w)%nat ->
  length a = length b -> (w + length B + length b <= length m)%nat ->
  put (put (put (put m o A) w B) (o + length A) a) (w + length B) b = put (put m o (A ++ a)) w (B ++ b).
Proof.
  intros H1 H2 H3 H4.
  rewrite (put_comm (put m o A) (o + length A) a w B) by (rewrite ?put_length; lia).
  rewrite (put_app m o A a) by lia.
  apply put_app. rewrite put_length; rewrite ?app_length; lia.
Qed.

(** One iteration of the outer loop of [avx2_store_par]: two states, two blocks. *)
Lemma avx2_store_pair s t m base hi : length s = 16%nat -> length t = 16%nat -> (base + 128 <= hi)%nat -> hi = length m ->
  for_ (seq 0 4) (fun i mem =>
      do p <- p_add {| p_lo := 0; p_hi := hi; p_off := base; p_esz := 16 |} i;
      do mem <- p_store mem p (mm_storeu (nth (2 * i) (concat (cols [s; t])) []));
      do p <- p_add {| p_lo := 0; p_hi := hi; p_off := base; p_esz := 16 |} (4 + i);
      p_store mem p (mm_storeu (nth (2 * i + 1) (concat (cols [s; t])) []))) m
  = Ok (put m base (bytes_of_words s ++ bytes_of_words t)).
Proof.
  intros Hs Ht Hb Hh.
  assert (Q : forall i m, (i < 4)%nat -> length m = hi ->
     (do p <- p_add {| p_lo := 0; p_hi := hi; p_off := base; p_esz := 16 |} i;
      do mem <- p_store m p (mm_storeu (nth (2 * i) (concat (cols [s; t])) []));
      do p <- p_add {| p_lo := 0; p_hi := hi; p_off := base; p_esz := 16 |} (4 + i);
      p_store mem p (mm_storeu (nth (2 * i + 1) (concat (cols [s; t])) [])))
     = Ok (put (put m (base + i * 16) (bytes_of_words (nth i (rows s) []))) (base + 64 + i * 16) (bytes_of_words (nth i (rows t) [])))
     /\ length (put (put m (base + i * 16) (bytes_of_words (nth i (rows s) []))) (base + 64 + i * 16) (bytes_of_words (nth i (rows t) []))) = hi).
  { intros i m' Hi Hm'.
    assert (E1 : nth (2 * i) (concat (cols [s; t])) [] = nth i (rows s) [])
      by (do 4 (destruct i as [|i]; [reflexivity|]); lia).
    assert (E2 : nth (2 * i + 1) (concat (cols [s; t])) [] = nth i (rows t) [])
      by (do 4 (destruct i as [|i]; [reflexivity|]); lia).
    rewrite E1, E2. unfold mm_storeu. pose proof (row_bytes_length s i Hs Hi) as Ls. pose proof (row_bytes_length t i Ht Hi) as Lt.
    padd. rewrite p_store_ok by (cbn [p_lo p_hi p_off]; lia). cbn [bind p_off].
    padd. rewrite p_store_ok by (cbn [p_lo p_hi p_off]; rewrite ?put_length by lia; lia). cbn [p_off].
    replace (base + (4 + i) * 16)%nat with (base + 64 + i * 16)%nat by lia. split; [reflexivity|].
    rewrite put_length; rewrite put_length; lia. }
  assert (Ls : forall i, (i < 4)%nat -> length (bytes_of_words (nth i (rows s) [])) = 16%nat)
    by (intros; apply row_bytes_length; assumption).
  assert (Lt : forall i, (i < 4)%nat -> length (bytes_of_words (nth i (rows t) [])) = 16%nat)
    by (intros; apply row_bytes_length; assumption).
  symmetry in Hh. cbn [seq for_].
  destruct (Q 0%nat m ltac:(lia) Hh) as [E0 H0]. rewrite E0. cbn [bind].
  destruct (Q 1%nat _ ltac:(lia) H0) as [E1 H1]. rewrite E1. cbn [bind].
  destruct (Q 2%nat _ ltac:(lia) H1) as [E2 H2]. rewrite E2. cbn [bind].
  destruct (Q 3%nat _ ltac:(lia) H2) as [E3 H3]. rewrite E3. cbn [bind].
  clear E0 E1 E2 E3 H0 H1 H2 H3 Q. f_equal.
  rewrite <- (rows_bytes s), <- (rows_bytes t) by assumption.
  change (r0 s) with (nth 0 (rows s) []). change (r1 s) with (nth 1 (rows s) []).
  change (r2 s) with (nth 2 (rows s) []). change (r3 s) with (nth 3 (rows s) []).
  change (r0 t) with (nth 0 (rows t) []). change (r1 t) with (nth 1 (rows t) []).
  change (r2 t) with (nth 2 (rows t) []). change (r3 t) with (nth 3 (rows t) []).
  pose proof (Ls 0%nat ltac:(lia)) as s0. pose proof (Ls 1%nat ltac:(lia)) as s1. pose proof (Ls 2%nat ltac:(lia)) as s2. pose proof (Ls 3%nat ltac:(lia)) as s3.
  pose proof (Lt 0%nat ltac:(lia)) as t0. pose proof (Lt 1%nat ltac:(lia)) as t1. pose proof (Lt 2%nat ltac:(lia)) as t2. pose proof (Lt 3%nat ltac:(lia)) as t3.
  clear Ls Lt.
  generalize dependent (bytes_of_words (nth 0 (rows s) [])). intros a0 s0.
  generalize dependent (bytes_of_words (nth 1 (rows s) [])). intros a1 s1.
  generalize dependent (bytes_of_words (nth 2 (rows s) [])). intros a2 s2.
  generalize dependent (bytes_of_words (nth 3 (rows s) [])). intros a3 s3.
  generalize dependent (bytes_of_words (nth 0 (rows t) [])). intros b0 t0.
  generalize dependent (bytes_of_words (nth 1 (rows t) [])). intros b1 t1.
  generalize dependent (bytes_of_words (nth 2 (rows t) [])). intros b2 t2.
  generalize dependent (bytes_of_words (nth 3 (rows t) [])). intros b3 t3.
  replace (base + 0 * 16)%nat with base by lia. replace (base + 64 + 0 * 16)%nat with (base + 64)%nat by lia.
  replace (base + 1 * 16)%nat with (base + length a0)%nat by lia.
  replace (base + 64 + 1 * 16)%nat with (base + 64 + length b0)%nat by lia.
  rewrite interleave_step by (rewrite ?app_length; lia).
  replace (base + 2 * 16)%nat with (base + length (a0 ++ a1))%nat by (rewrite ?app_length; lia).
  replace (base + 64 + 2 * 16)%nat with (base + 64 + length (b0 ++ b1))%nat by (rewrite ?app_length; lia).
  rewrite interleave_step by (rewrite ?app_length; lia).
  replace (base + 3 * 16)%nat with (base + length ((a0 ++ a1) ++ a2))%nat by (rewrite ?app_length; lia).
  replace (base + 64 + 3 * 16)%nat with (base + 64 + length ((b0 ++ b1) ++ b2))%nat by (rewrite ?app_length; lia).
  rewrite interleave_step by (rewrite ?app_length; lia).
  rewrite <- !app_assoc.
  replace (base + 64)%nat with (base + length (a0 ++ a1 ++ a2 ++ a3))%nat by (rewrite ?app_length; lia).
  rewrite put_app by (rewrite ?app_length; lia). rewrite <- !app_assoc. reflexivity.
Qed.

Lemma avx2_store_par_ok v n st mem : wf16 st -> length mem = 256%nat ->
  avx2_store_par [cols [run_rounds n (adv v 0 st); run_rounds n (adv v 1 st)];
                  cols [run_rounds n (adv v 2 st); run_rounds n (adv v 3 st)]] mem = Ok (blocks_from v n 4 st).
Proof.
  intros H Hm. pose proof (fun k => rr_length v n k st H) as L.
  assert (L2 : forall k, length (bytes_of_words (run_rounds n (adv v k st))) = 64%nat)
    by (intros; rewrite bytes_of_words_length, L; reflexivity).
  unfold avx2_store_par. cbn [for_]. unfold whole. rewrite Hm.
  rewrite avx2_store_pair by (try apply L; lia). cbn [bind]. padd.
  rewrite avx2_store_pair; try apply L; try lia.
  2:{ rewrite put_length; rewrite ?app_length, ?L2; lia. }
  cbn [bind]. padd. f_equal.
  change (0 + 8 * 16)%nat with 128%nat.
  replace 128%nat with (0 + length (bytes_of_words (run_rounds n (adv v 0 st)) ++ bytes_of_words (run_rounds n (adv v 1 st))))%nat
    by (rewrite app_length, !L2; reflexivity).
  rewrite put_app by (rewrite app_length, !L2; lia).
  unfold blocks_from. cbn [seq flat_map]. rewrite app_nil_r, <- !app_assoc.
  change (N.of_nat 0) with 0. change (N.of_nat 1) with 1. change (N.of_nat 2) with 2. change (N.of_nat 3) with 3.
  apply put_all. rewrite !app_length, !L2. symmetry. exact Hm.
Qed.

Lemma avx2_one_mem_ok v n st mem : wf16 st -> length mem = 64%nat ->
  avx2_one_mem v n (avx2_regs v st) mem = Ok (blocks_from v n 1 st, avx2_regs v (adv v 1 st)).
Proof.
  intros H Hm. unfold avx2_one_mem. cbv zeta. rewrite avx2_rounds_eq, avx2_step_ctr by assumption. cbn [nth].
  assert (Hs : length (run_rounds n (adv v 0 st)) = 16%nat) by (apply rr_length; assumption).
  rewrite (store4_ok _ (run_rounds n (adv v 0 st)) 0 64); try assumption; try lia.
  - cbn [bind]. rewrite put_all by (rewrite bytes_of_words_length, Hs, Hm; reflexivity).
    rewrite blocks_from_1, adv_0 by assumption. reflexivity.
  - intros i m Hi Hm'. unfold whole. padd.
    replace (nth (2 * i) _ []) with (nth i (rows (run_rounds n (adv v 0 st))) [])
      by (do 4 (destruct i as [|i]; [reflexivity|]); lia).
    rewrite p_store_ok; cbn [p_lo p_hi p_off]; try lia; [reflexivity|].
    unfold mm_storeu. rewrite row_bytes_length by assumption. lia.
Qed.
Lemma avx2_par_mem_ok v n st mem : wf16 st -> length mem = 256%nat ->
  avx2_par_mem v n (avx2_regs v st) mem = Ok (blocks_from v n 4 st, avx2_regs v (adv v 4 st)).
Proof.
  intros H Hm. unfold avx2_par_mem. cbv zeta. rewrite avx2_rounds_eq, avx2_step_ctr, avx2_store_par_ok by assumption.
  reflexivity.
Qed.
Lemma avx2_setup_eq v st : wf16 st -> avx2_setup v (rows st) = avx2_regs v st.
Proof. intros H. rewrite <- avx2_load_eq by assumption. reflexivity. Qed.
Lemma avx2_inner_mem_ok v n l st : wf16 st -> forallb (req_ok 4) (map fst l) = true -> buffers_fit 4 l ->
  exists bufs st', avx2_inner_mem v n l st = Ok (bufs, st')
    /\ map (@length N) bufs = map (fun x => length (snd x)) l
    /\ avx2_inner v n (map fst l) st = Ok (concat bufs, st').
Proof.
  intros Hwf Hok Hfit. rewrite avx2_inner_ok by assumption. unfold avx2_inner_mem.
  rewrite avx2_load_mem_ok by assumption. cbn [bind]. rewrite avx2_setup_eq by assumption.
  set (R := fun b st => b = avx2_regs v st).
  assert (Hone : forall b st mem, wf16 st -> R b st -> length mem = 64%nat ->
    exists b', m_one (avx2_mbackend v n) b mem = Ok (blocks_from v n 1 st, b') /\ R b' (adv v 1 st)).
  { intros b s mem Hs -> Hm. eexists. split; [apply avx2_one_mem_ok; assumption|reflexivity]. }
  destruct (m_run_ok (avx2_mbackend v n) v n R Hone) with (l := l) (b := avx2_regs v st) (st := st)
    as (bufs & b' & E & E1 & E2 & HR); try assumption.
  - intros b s mem Hs -> Hm. eexists. split; [apply avx2_par_mem_ok; assumption|reflexivity].
  - intros b s k mem Hs HR Hk Hm. apply (m_default_tail_ok (avx2_mbackend v n) v n R Hone); assumption.
  - reflexivity.
  - change (m_par (avx2_mbackend v n)) with 4%nat in *.
    rewrite E. cbn [bind]. unfold R in HR. rewrite HR. do 2 eexists. split; [reflexivity|].
    split; [assumption|]. rewrite E1. do 2 f_equal. symmetry.
    remember (N.of_nat (reqs_blocks 4 (map fst l))) as k.
    pose proof (store_ctr v k st (proj1 Hwf)) as Hs. pose proof (adv_length v k st) as La. rewrite (proj1 Hwf) in La.
    unfold avx2_regs. cbn [avx2_ctr nth]. unfold mm256_extract_epi32. cbn [concat].
    rewrite adv_0 by (apply adv_wf; assumption).
    assert (G : forall i rest, (i < 4)%nat -> get (r3 (adv v k st) ++ rest) i = get (r3 (adv v k st)) i).
    { intros i rest Hi. unfold get. apply app_nth1. destr16 (adv v k st) La. cbn. lia. }
    destruct v; rewrite !G by lia; exact Hs.
Qed.
Lemma avx2_rng_mem_ok n st mem : wf16 st -> length mem = 256%nat ->
  exists mem', avx2_rng_inner_mem n st mem = Ok (mem', snd (avx2_rng_inner n st))
    /\ length mem' = 256%nat /\ words_of_bytes mem' = fst (avx2_rng_inner n st).
Proof.
  intros H Hm. pose proof (avx2_rng_legacy n st H) as E. rewrite E. cbn [fst snd].
  apply (f_equal snd) in E. cbn [snd] in E. unfold avx2_rng_inner in E. cbv zeta in E. cbn [snd] in E.
  unfold avx2_rng_inner_mem. rewrite avx2_load_mem_ok by assumption. cbn [bind]. cbv zeta.
  rewrite (avx2_setup_eq Legacy) by assumption. rewrite avx2_rounds_eq, avx2_store_par_ok by assumption. cbn [bind].
  eexists. split.
  - f_equal. f_equal. rewrite <- E. rewrite <- (avx2_load_eq Legacy) by assumption. reflexivity.
  - split; [rewrite blocks_from_length by assumption; reflexivity | apply blocks_words; assumption].
Qed.

(** ** AVX-512 *)
Lemma for_ext_in {A S} (f g : A -> S -> Res S) l : (forall x s, In x l -> f x s = g x s) -> forall s, for_ l f s = for_ l g s.
Proof.
  induction l as [|x l IH]; intros H s; [reflexivity|]. cbn [for_]. rewrite H by (left; reflexivity).
  destruct (g x s); [cbn [bind]; apply IH; intros; apply H; right; assumption | reflexivity].
Qed.
Lemma for_map {A B S} (h : A -> B) (f : B -> S -> Res S) l : forall s, for_ (map h l) f s = for_ l (fun x => f (h x)) s.
Proof.
  induction l as [|x l IH]; intros s; [reflexivity|]. cbn [map for_]. destruct (f (h x) s); [cbn [bind]; apply IH | reflexivity].
Qed.
Lemma for_seq_shift {S} (f : nat -> S -> Res S) b k s : for_ (seq b k) f s = for_ (seq 0 k) (fun j => f (b + j)%nat) s.
Proof.
  rewrite <- (for_map (fun j => b + j)%nat f). f_equal. clear f s. revert b; induction k as [|k IH]; intros b; [reflexivity|].
  cbn [seq map]. rewrite Nat.add_0_r. f_equal. rewrite (IH (Datatypes.S b)), (IH 1%nat), map_map.
  apply map_ext. intros. lia.
Qed.
Lemma for_nest {S} (f : nat -> S -> Res S) m nn : forall s,
  for_ (seq 0 nn) (fun i => for_ (seq 0 m) (fun j => f (i * m + j)%nat)) s = for_ (seq 0 (nn * m)) f s.
Proof.
  induction nn as [|nn IH]; intros s; [reflexivity|].
  replace (Datatypes.S nn) with (nn + 1)%nat by lia. rewrite Nat.mul_add_distr_r, !seq_app, !for_app, IH.
  destruct (for_ (seq 0 (nn * m)) f s) as [x|]; [|reflexivity]. cbn [bind seq Nat.add for_ Nat.mul].
  rewrite Nat.add_0_r, (for_seq_shift f (nn * m)).
  destruct (for_ (seq 0 m) (fun j => f (nn * m + j)%nat) x); reflexivity.
Qed.
Lemma for_skip {S A} (l : list A) (f : A -> S -> Res S) : (forall x s, In x l -> f x s = Ok s) -> forall s, for_ l f s = Ok s.
Proof.
  induction l as [|x l IH]; intros H s; [reflexivity|]. cbn [for_]. rewrite H by (left; reflexivity). cbn [bind].
  apply IH. intros; apply H; right; assumption.
Qed.
Lemma for_guard {S} (f : nat -> S -> Res S) len m : (len <= m)%nat -> forall s,
  for_ (seq 0 m) (fun k s => if (k <? len)%nat then f k s else Ok s) s = for_ (seq 0 len) f s.
Proof.
  intros H s. replace m with (len + (m - len))%nat by lia. rewrite seq_app, for_app.
  rewrite for_ext_in with (g := f).
  2:{ intros k x Hk. apply in_seq in Hk. replace (k <? len)%nat with true by lia. reflexivity. }
  destruct (for_ (seq 0 len) f s) as [x|]; [|reflexivity]. cbn [bind].
  apply for_skip. intros k y Hk. apply in_seq in Hk. replace (k <? len)%nat with false by lia. reflexivity.
Qed.

Lemma avx512_one_mem_ok v n st mem : wf16 st -> length mem = 64%nat ->
  avx512_one_mem v n (avx512_regs st) mem = Ok (blocks_from v n 1 st, avx512_regs (adv v 1 st)).
Proof.
  intros H Hm. assert (Hl : length st = 16%nat) by apply H. unfold avx512_one_mem. cbv zeta.
  cbn [avx512_regs avx512_ctr avx512_state nth].
  change [r0 st; r1 st; r2 st; r3 st] with (rows st). rewrite rounds_q by assumption.
  change {| avx512_state := [r0 st; r1 st; r2 st]; avx512_ctr := r3 st |} with (avx512_regs st).
  rewrite avx512_incr_eq by assumption.
  assert (Hs : length (run_rounds n st) = 16%nat) by (apply run_rounds_length; assumption).
  rewrite (store4_ok _ (run_rounds n st) 0 64); try assumption; try lia.
  - cbn [bind]. rewrite put_all by (rewrite bytes_of_words_length, Hs, Hm; reflexivity).
    rewrite blocks_from_1 by assumption. reflexivity.
  - intros i m Hi Hm'. unfold whole. padd.
    pose proof (row_bytes_length (run_rounds n st) i Hs Hi).
    rewrite p_store_ok; cbn [p_lo p_hi p_off]; try lia. do 2 f_equal; lia.
Qed.

Lemma avx512_full_mem_ok v nn n len st mem : wf16 st -> (len <= nn * 4)%nat -> length mem = (64 * len)%nat ->
  avx512_full_mem v nn n len (avx512_regs st) mem
  = Ok (blocks_from v n len st, avx512_regs (adv v (N.of_nat len) st)).
Proof.
  intros H Hlen Hm. assert (Hl : length st = 16%nat) by apply H.
  unfold avx512_full_mem, avx512_BLOCKS_PER_VECTOR.
  replace (len <=? nn * 4)%nat with true by lia. cbn [assert_ bind]. cbv zeta.
  rewrite avx512_incr_eq by assumption. cbn [avx512_regs avx512_ctr avx512_state].
  rewrite !r0_adv, !r1_adv, !r2_adv by assumption.
  rewrite avx512_rounds_eq by assumption.
  set (F := fun k mem => do p <- element mem 64 k 64;
              p_store mem p (bytes_of_words (run_rounds n (adv v (N.of_nat k) st)))).
  rewrite for_ext_in with (g := fun i => for_ (seq 0 4) (fun j =>
      (fun k mem => if (k <? len)%nat then F k mem else Ok mem) (i * 4 + j)%nat)).
  - rewrite (for_nest (fun k mem => if (k <? len)%nat then F k mem else Ok mem)), for_guard by assumption.
    rewrite (store_blocks_ok F v n len st H); [reflexivity| |assumption].
    intros i m Hi Hm'. unfold F. rewrite element_ok by lia. cbn [bind].
    rewrite p_store_ok; [reflexivity| | |]; cbn [p_lo p_hi p_off]; try lia.
    rewrite bytes_of_words_length, rr_length by assumption. lia.
  - intros i m Hi. apply in_seq in Hi. rewrite nth_map_seq by lia.
    apply for_ext_in. intros j m' Hj. apply in_seq in Hj. cbv beta.
    destruct (i * 4 + j <? len)%nat; [|reflexivity]. unfold F.
    assert (E : forall k, length (run_rounds n (adv v k st)) = 16%nat) by (intros; apply rr_length; assumption).
    match goal with |- bind _ (fun p => p_store _ p (bytes_of_words ?x)) = bind _ (fun q => p_store _ q (bytes_of_words ?y)) =>
      assert (EQ : x = y) end.
    { unfold grp. cbn [seq map]. unfold cols. cbn [map].
      rewrite (transpose_lanes _ _ _ _ _ _ _ _ eq_refl eq_refl eq_refl eq_refl) by apply E.
      assert (Hj' : j = 0%nat \/ j = 1%nat \/ j = 2%nat \/ j = 3%nat) by lia.
      destruct Hj' as [->|[->|[->| ->]]]; cbn [nth]; apply rows_concat; apply E. }
    rewrite EQ. reflexivity.
Qed.

Lemma avx512_half_mem_ok v n len st mem : wf16 st -> (len <= 2)%nat -> length mem = (64 * len)%nat ->
  avx512_half_mem v n len (avx512_regs st) mem
  = Ok (blocks_from v n len st, avx512_regs (adv v (N.of_nat len) st)).
Proof.
  intros H Hlen Hm. assert (Hl : length st = 16%nat) by apply H.
  unfold avx512_half_mem. replace (len <=? 2)%nat with true by lia. cbn [assert_ bind]. cbv zeta.
  rewrite avx512_incr_eq by assumption. cbn [avx512_regs avx512_ctr avx512_state nth].
  rewrite !r0_adv, !r1_adv, !r2_adv by assumption.
  match goal with |- context [avx512_rounds_halfwide n ?l] =>
    assert (Ei : l = cols [adv v 0 st; adv v 1 st]) end.
  { unfold cols. cbn [map nth]. rewrite !r0_adv, !r1_adv, !r2_adv by assumption. unfold mm256_broadcast.
    do 4 f_equal. unfold mm256_set_epi32, mm256_set_epi64x, mm256_add_epi32, mm256_add_epi64.
    destruct v; cbn [map2]; rewrite ?add_r3_32, ?add_r3_64 by assumption; reflexivity. }
  rewrite Ei. clear Ei. rewrite rounds_h by (rewrite adv_length; assumption).
  assert (E : forall k, length (run_rounds n (adv v k st)) = 16%nat) by (intros; apply rr_length; assumption).
  pose proof (half_lanes (run_rounds n (adv v 0 st)) (run_rounds n (adv v 1 st)) (E _) (E _)) as (E1 & E2 & E3 & E4).
  cbv zeta in E1, E2, E3, E4. rewrite E1, E2, E3, E4. clear E1 E2 E3 E4.
  rewrite (for_guard (fun i mem =>
        let '(ab, cd) := nth i [([r0 (run_rounds n (adv v 0 st)); r1 (run_rounds n (adv v 0 st))],
                                 [r2 (run_rounds n (adv v 0 st)); r3 (run_rounds n (adv v 0 st))]);
                                ([r0 (run_rounds n (adv v 1 st)); r1 (run_rounds n (adv v 1 st))],
                                 [r2 (run_rounds n (adv v 1 st)); r3 (run_rounds n (adv v 1 st))])] ([], []) in
        do dst <- element mem 64 i 4;
        do mem <- p_store mem dst (bytes_of_words (concat ab));
        do p <- p_add dst (64 / 2 / 4);
        p_store mem p (bytes_of_words (concat cd)))) by assumption.
  rewrite (store_blocks_ok _ v n len st H); [reflexivity| |assumption].
  intros i m Hi Hm'.
  assert (G : forall s, length s = 16%nat ->
     (do dst <- element m 64 i 4;
      do mem0 <- p_store m dst (bytes_of_words (concat [r0 s; r1 s]));
      do p <- p_add dst (64 / 2 / 4);
      p_store mem0 p (bytes_of_words (concat [r2 s; r3 s]))) = Ok (put m (i * 64) (bytes_of_words s))).
  { intros s Hs. cbn [concat]. rewrite !app_nil_r, !bytes_of_words_app.
    pose proof (row_bytes_length s 0 Hs ltac:(lia)) as L0. pose proof (row_bytes_length s 1 Hs ltac:(lia)) as L1.
    pose proof (row_bytes_length s 2 Hs ltac:(lia)) as L2. pose proof (row_bytes_length s 3 Hs ltac:(lia)) as L3.
    cbn [nth rows] in L0, L1, L2, L3.
    rewrite element_ok by lia. cbn [bind].
    rewrite p_store_ok; cbn [p_lo p_hi p_off]; rewrite ?app_length; try lia. cbn [bind].
    change (64 / 2 / 4)%nat with 8%nat. padd.
    rewrite p_store_ok; cbn [p_lo p_hi p_off]; rewrite ?put_length; rewrite ?app_length; try lia.
    f_equal. replace (i * 64 + 8 * 4)%nat with (i * 64 + length (bytes_of_words (r0 s) ++ bytes_of_words (r1 s)))%nat
      by (rewrite app_length; lia).
    rewrite put_app by (rewrite app_length; lia). rewrite <- app_assoc. f_equal. apply rows_bytes. assumption. }
  assert (Hi' : i = 0%nat \/ i = 1%nat) by lia.
  destruct Hi' as [-> | ->]; cbn [nth]; apply G; apply E.
Qed.

Lemma avx512_tail_mem_ok v n k st mem : wf16 st -> (k < 16)%nat -> length mem = (64 * k)%nat ->
  avx512_tail_mem v n k (avx512_regs st) mem = Ok (blocks_from v n k st, avx512_regs (adv v (N.of_nat k) st)).
Proof.
  intros H Hk Hm. unfold avx512_tail_mem, avx512_MAX_PAR_BLOCKS.
  replace (k <? 16)%nat with true by lia. cbn [assert_ bind].
  destruct (Nat.eqb_spec k 0) as [->|H0].
  { change (N.of_nat 0) with 0. rewrite adv_0 by assumption. destruct mem; [reflexivity | discriminate Hm]. }
  destruct (Nat.eqb_spec k 1) as [->|H1].
  { change (N.of_nat 1) with 1. apply avx512_one_mem_ok; assumption. }
  destruct (Nat.eqb_spec k 2) as [->|H2].
  { apply avx512_half_mem_ok; first [assumption | lia]. }
  destruct (Nat.leb_spec k 4); [apply avx512_full_mem_ok; first [assumption | lia]|].
  destruct (Nat.leb_spec k 8); [apply avx512_full_mem_ok; first [assumption | lia]|].
  apply avx512_full_mem_ok; first [assumption | unfold avx512_MAX_N; lia].
Qed.

Lemma avx512_inner_mem_ok v n l st : wf16 st -> forallb (req_ok 16) (map fst l) = true -> buffers_fit 16 l ->
  exists bufs st', avx512_inner_mem v n l st = Ok (bufs, st')
    /\ map (@length N) bufs = map (fun x => length (snd x)) l
    /\ avx512_inner v n (map fst l) st = Ok (concat bufs, st').
Proof.
  intros Hwf Hok Hfit. rewrite avx512_inner_ok by assumption. unfold avx512_inner_mem.
  rewrite avx512_load_mem_ok by assumption. cbn [bind].
  set (R := fun b st => b = avx512_regs st).
  destruct (m_run_ok (avx512_mbackend v n) v n R) with (l := l) (b := avx512_regs st) (st := st)
    as (bufs & b' & E & E1 & E2 & HR); try assumption.
  - intros b s mem Hs -> Hm. eexists. split; [apply avx512_one_mem_ok; assumption|reflexivity].
  - intros b s mem Hs -> Hm. eexists. split; [|reflexivity].
    apply (avx512_full_mem_ok v 4 n 16); first [assumption | lia].
  - intros b s k mem Hs -> Hk Hm. eexists. split; [|reflexivity]. apply avx512_tail_mem_ok; assumption.
  - reflexivity.
  - change (m_par (avx512_mbackend v n)) with 16%nat in *.
    rewrite E. cbn [bind]. unfold R in HR. rewrite HR. do 2 eexists. split; [reflexivity|].
    split; [assumption|]. rewrite E1. do 2 f_equal. symmetry.
    pose proof (store_ctr v (N.of_nat (reqs_blocks 16 (map fst l))) st (proj1 Hwf)) as Hs.
    destruct v; exact Hs.
Qed.

(** ** NEON *)
Lemma neon_store_block n v st i b m : wf16 st -> (i < 8)%nat -> ((i + 1) * 64 <= length m)%nat ->
  b = rows (run_rounds n (adv v (N.of_nat i) st)) ->
  for_ (seq 0 4) (fun row mem =>
        do d <- element mem 64 i 1;
        do p <- p_add d (row * 16);
        p_store mem p (vst1q_u8 (nth row b []))) m
  = Ok (put m (i * 64) (bytes_of_words (run_rounds n (adv v (N.of_nat i) st)))).
Proof.
  intros H Hi Hm ->. pose proof (rr_length v n (N.of_nat i) st H) as Hs.
  apply (store4_ok _ _ (i * 64) (length m)); [assumption| |lia|reflexivity].
  intros r m' Hr Hm'. rewrite element_ok by lia. cbn [bind]. padd.
  pose proof (row_bytes_length _ r Hs Hr). unfold vst1q_u8.
  rewrite p_store_ok; cbn [p_lo p_hi p_off]; try lia. do 2 f_equal; lia.
Qed.

Lemma neon_par_mem_ok v n st mem : wf16 st -> length mem = 512%nat ->
  neon_par_mem v n (neon_regs st) mem = Ok (blocks_from v n 8 st, neon_regs (adv v 8 st)).
Proof.
  intros H Hm. assert (Hl : length st = 16%nat) by apply H. unfold neon_par_mem. cbv zeta.
  rewrite neon_blocks_eq by (try assumption; lia).
  rewrite (store_blocks_ok _ v n 8 st H); [cbn [bind]| |assumption].
  - do 2 f_equal. rewrite neon_ctrs_nth by lia. change (nth 3 (neon_state (neon_regs st)) []) with (r3 st).
    cbn [Nat.add]. change (N.of_nat 8) with 8. rewrite neon_add_r3 by (try assumption; lia).
    apply (neon_regs_adv v 8 (rows st)); [assumption | reflexivity..].
  - intros i m Hi Hm'. apply neon_store_block; try assumption; try lia.
    rewrite nth_map_seq by lia. apply neon_finish_eq; assumption.
Qed.
Lemma neon_one_mem_ok v n st mem : wf16 st -> length mem = 64%nat ->
  neon_one_mem v n (neon_regs st) mem = Ok (blocks_from v n 1 st, neon_regs (adv v 1 st)).
Proof.
  intros H Hm. pose proof (neon_one_ok v n st H) as E. unfold neon_gen_ks_block in E. cbv zeta in E.
  rewrite neon_par_ok in E by assumption. unfold neon_one_mem. cbv zeta.
  rewrite neon_par_mem_ok by (try assumption; apply repeat_length). cbn [bind].
  pose proof (f_equal fst E) as E1. pose proof (f_equal snd E) as E2. cbn [fst snd] in E1, E2. clear E.
  rewrite E1, E2. rewrite p_store_ok; cbn [whole p_lo p_hi p_off]; rewrite ?blocks_from_length by assumption; try lia.
  cbn [bind]. rewrite put_all by (rewrite blocks_from_length by assumption; lia). reflexivity.
Qed.
Lemma neon_store_row3_ok st r : wf16 st -> length r = 4%nat -> words r ->
  neon_store_row3_mem st r = Ok (firstn 12 st ++ r).
Proof.
  intros [Hl Hw] Hr Hwr. unfold neon_store_row3_mem. cbv zeta. unfold whole. rewrite bytes_of_words_length, Hl.
  padd. rewrite p_store_ok; cbn [p_lo p_hi p_off]; rewrite ?bytes_of_words_length, ?Hl, ?Hr; try lia.
  cbn [bind]. f_equal. change (0 + 12 * 4)%nat with 48%nat.
  assert (E : put (bytes_of_words st) 48 (bytes_of_words r) = bytes_of_words (firstn 12 st ++ r)).
  { rewrite bytes_of_words_app. unfold put. rewrite bytes_of_words_length, Hr.
    rewrite (skipn_all2 (n := (48 + 4 * 4)%nat)) by (rewrite bytes_of_words_length, Hl; lia). rewrite app_nil_r. f_equal.
    clear Hw. destr16 st Hl. reflexivity. }
  rewrite E. apply words_of_bytes_of_words. apply Forall_app. split; [|assumption].
  clear - Hw. unfold words in *. rewrite Forall_forall in *. intros x Hx. apply Hw.
  rewrite <- (firstn_skipn 12 st). apply in_or_app. left. assumption.
Qed.
Lemma r3_words st : wf16 st -> length (r3 st) = 4%nat /\ words (r3 st).
Proof.
  intros [Hl Hw]. destr16 st Hl. unfold words in *. inv_forall. split; [reflexivity|]. repeat constructor; assumption.
Qed.
Lemma neon_inner_mem_ok v n l st : wf16 st -> forallb (req_ok 8) (map fst l) = true -> buffers_fit 8 l ->
  exists bufs st', neon_inner_mem v n l st = Ok (bufs, st')
    /\ map (@length N) bufs = map (fun x => length (snd x)) l
    /\ neon_inner v n (map fst l) st = Ok (concat bufs, st').
Proof.
  intros Hwf Hok Hfit. rewrite neon_inner_ok by assumption. unfold neon_inner_mem.
  rewrite neon_new_mem_ok by assumption. cbn [bind].
  set (R := fun b st => b = neon_regs st).
  assert (Hone : forall b st mem, wf16 st -> R b st -> length mem = 64%nat ->
    exists b', m_one (neon_mbackend v n) b mem = Ok (blocks_from v n 1 st, b') /\ R b' (adv v 1 st)).
  { intros b s mem Hs -> Hm. eexists. split; [apply neon_one_mem_ok; assumption|reflexivity]. }
  destruct (m_run_ok (neon_mbackend v n) v n R Hone) with (l := l) (b := neon_regs st) (st := st)
    as (bufs & b' & E & E1 & E2 & HR); try assumption.
  - intros b s mem Hs -> Hm. eexists. split; [apply neon_par_mem_ok; assumption|reflexivity].
  - intros b s k mem Hs HR Hk Hm. apply (m_default_tail_ok (neon_mbackend v n) v n R Hone); assumption.
  - reflexivity.
  - change (m_par (neon_mbackend v n)) with 8%nat in *.
    rewrite E. cbn [bind]. unfold R in HR. rewrite HR.
    remember (N.of_nat (reqs_blocks 8 (map fst l))) as k.
    change (nth 3 (neon_state (neon_regs (adv v k st))) []) with (r3 (adv v k st)).
    exists bufs, (adv v k st). rewrite <- E1. split; [|split; [assumption|reflexivity]].
    destruct v.
    + cbn [bind]. do 2 f_equal. apply (store_ctr Ietf). apply Hwf.
    + destruct (r3_words _ (adv_wf Legacy k st Hwf)) as [L W].
      rewrite neon_store_row3_ok by assumption. cbn [bind]. do 2 f_equal. apply (store_row3 Legacy). apply Hwf.
Qed.
Lemma for_moving (X : nat -> ptr -> list N -> Res (list N)) (B : nat -> list N) L :
  (forall i m, ((i + 1) * 64 <= L)%nat -> length m = L ->
     X i {| p_lo := 0; p_hi := L; p_off := i * 64; p_esz := 1 |} m = Ok (put m (i * 64) (B i))) ->
  (forall i, length (B i) = 64%nat) ->
  forall k, (k * 64 <= L)%nat -> forall m, length m = L ->
  for_ (seq 0 k) (fun b '(mem, p) => do mem <- X b p mem; do p <- p_add p 64; Ok (mem, p))
    (m, {| p_lo := 0; p_hi := L; p_off := 0; p_esz := 1 |})
  = Ok (put m 0 (flat_map B (seq 0 k)), {| p_lo := 0; p_hi := L; p_off := k * 64; p_esz := 1 |}).
Proof.
  intros HX LB k. induction k as [|k IH]; intros Hk m Hm.
  - cbn [seq for_ flat_map]. rewrite put_nil. reflexivity.
  - rewrite seq_S, for_app, IH by first [assumption | lia]. cbn [bind for_ Nat.add].
    assert (EL : length (flat_map B (seq 0 k)) = (k * 64)%nat).
    { clear - LB. induction k as [|k IH]; [reflexivity|].
      rewrite seq_S, flat_map_app, app_length, IH. cbn [flat_map Nat.add]. rewrite app_nil_r, LB. lia. }
    rewrite HX by (rewrite ?put_length; lia). cbn [bind]. padd. rewrite flat_map_app. cbn [flat_map]. rewrite app_nil_r.
    f_equal. f_equal; [|f_equal; lia].
    replace (k * 64)%nat with (0 + length (flat_map B (seq 0 k)))%nat by (rewrite EL; reflexivity).
    apply put_app. lia.
Qed.
Lemma neon_rng_mem_eq v n st mem : wf16 st -> length mem = 256%nat ->
  neon_rng_inner_mem v n st mem = Ok (blocks_from v n 4 st, adv v 4 st).
Proof.
  intros H Hm.
  unfold neon_rng_inner_mem. rewrite neon_new_mem_ok by assumption. cbn [bind]. cbv zeta.
  rewrite neon_blocks_eq by (try assumption; lia).
  unfold whole. rewrite Hm.
  rewrite (for_moving (fun block p mem => for_ (seq 0 4) (fun row mem =>
          do p <- p_add p (row * 16);
          p_store mem p (vst1q_u8 (nth row (neon_finish_block v (neon_regs st) block
            (nth block (map (fun i => rows (iter_n n double_round (adv v (N.of_nat i) st))) (seq 0 4)) [])) []))) mem)
     (fun i => bytes_of_words (run_rounds n (adv v (N.of_nat i) st))) 256); try assumption; try lia.
  - cbn [bind]. rewrite neon_ctrs_nth by lia. change (nth 3 (neon_state (neon_regs st)) []) with (r3 st).
    cbn [Nat.add]. change (N.of_nat 4) with 4. rewrite neon_add_r3 by (try assumption; lia).
    destruct (r3_words _ (adv_wf v 4 st H)) as [L W].
    rewrite neon_store_row3_ok by assumption. cbn [bind].
    change (flat_map _ (seq 0 4)) with (blocks_from v n 4 st).
    rewrite put_all by (rewrite blocks_from_length, Hm by assumption; reflexivity).
    do 2 f_equal. apply store_row3; apply H.
  - intros i m Hi Hm'. rewrite nth_map_seq by lia. rewrite neon_finish_eq by (try assumption; lia).
    pose proof (rr_length v n (N.of_nat i) st H) as Hs.
    apply (store4_ok _ _ (i * 64) 256); [assumption| |lia|assumption].
    intros r m' Hr Hm''. padd. pose proof (row_bytes_length _ r Hs Hr). unfold vst1q_u8.
    rewrite p_store_ok; cbn [p_lo p_hi p_off]; try lia. do 2 f_equal; lia.
  - intros i. rewrite bytes_of_words_length, rr_length by assumption. reflexivity.
Qed.
Lemma neon_rng_mem_ok v n st mem : wf16 st -> length mem = 256%nat ->
  exists mem', neon_rng_inner_mem v n st mem = Ok (mem', snd (neon_rng_inner v n st))
    /\ length mem' = 256%nat /\ words_of_bytes mem' = fst (neon_rng_inner v n st).
Proof.
  intros H Hm. rewrite neon_rng_eq by assumption. cbn [fst snd]. exists (blocks_from v n 4 st).
  split; [apply neon_rng_mem_eq; assumption|].
  split; [rewrite blocks_from_length by assumption; reflexivity | apply blocks_words; assumption].
Qed.
