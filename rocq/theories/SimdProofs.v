(** Lane-wise reasoning shared by the SIMD backends. *)
From Verif Require Import Word WordLemmas Res Simd ChaChaCore ChaChaBackend ChaChaSoft ChaChaProofs.
From Coq Require Import ZArith Lia ZifyBool ZifyNat ZifyN.
Ltac Zify.zify_post_hook ::= Z.div_mod_to_equations.

(** ** Rotations *)
Lemma xor_shift_rot x r : r <= 32 ->
  N.lxor ((N.shiftl x r) mod M32) (N.shiftr (x mod M32) (32 - r)) = rotl32 x r.
Proof.
  intros Hr. rewrite rotl32_arith by assumption.
  rewrite N.shiftl_mul_pow2, N.shiftr_div_pow2, M32_pow, mul_pow2_mod by assumption.
  rewrite lxor_disjoint_add; [reflexivity|].
  apply div_pow2_lt; [assumption|]. apply N.mod_lt, pow2_nz.
Qed.

Lemma map2_map_map {A B C D} (f : B -> C -> D) (g : A -> B) (h : A -> C) l :
  map2 f (map g l) (map h l) = map (fun x => f (g x) (h x)) l.
Proof. induction l as [|x l IH]; cbn [map map2]; [reflexivity|]. rewrite IH. reflexivity. Qed.

Definition vrot (r : N) (v : m128) : m128 := map (fun x => rotl32 x r) v.

Lemma mm_xor_shift_rot r v : r <= 32 -> mm_xor (mm_slli_epi32 v r) (mm_srli_epi32 v (32 - r)) = vrot r v.
Proof.
  intros Hr. unfold mm_xor, mm_slli_epi32, mm_srli_epi32, vrot, xor32. rewrite map2_map_map.
  apply map_ext. intros x. apply xor_shift_rot. assumption.
Qed.
Lemma mm_rot16 v : mm_xor (mm_slli_epi32 v 16) (mm_srli_epi32 v 16) = vrot 16 v.
Proof. apply (mm_xor_shift_rot 16). lia. Qed.
Lemma mm_rot12 v : mm_xor (mm_slli_epi32 v 12) (mm_srli_epi32 v 20) = vrot 12 v.
Proof. apply (mm_xor_shift_rot 12). lia. Qed.
Lemma mm_rot8 v : mm_xor (mm_slli_epi32 v 8) (mm_srli_epi32 v 24) = vrot 8 v.
Proof. apply (mm_xor_shift_rot 8). lia. Qed.
Lemma mm_rot7 v : mm_xor (mm_slli_epi32 v 7) (mm_srli_epi32 v 25) = vrot 7 v.
Proof. apply (mm_xor_shift_rot 7). lia. Qed.

(** Byte permutations that are rotations of a word. *)
Lemma byte_rot16 x :
  (x / 256 / 256) mod 256 + 256 * ((x / 256 / 256 / 256) mod 256 + 256 * (x mod 256 + 256 * ((x / 256) mod 256 + 256 * 0)))
  = rotl32 x 16.
Proof.
  rewrite rotl32_arith by lia. change (2 ^ 16) with 65536. change (2 ^ 32) with M32.
  change (2 ^ (32 - 16)) with 65536. lia.
Qed.
Lemma byte_rot8 x :
  (x / 256 / 256 / 256) mod 256 + 256 * (x mod 256 + 256 * ((x / 256) mod 256 + 256 * ((x / 256 / 256) mod 256 + 256 * 0)))
  = rotl32 x 8.
Proof.
  rewrite rotl32_arith by lia. change (2 ^ 8) with 256. change (2 ^ 32) with M32.
  change (2 ^ (32 - 8)) with 16777216. lia.
Qed.
Lemma half_rot16 x : (x / 65536) mod 65536 + 65536 * (x mod 65536) = rotl32 x 16.
Proof.
  rewrite rotl32_arith by lia. change (2 ^ 16) with 65536. change (2 ^ 32) with M32.
  change (2 ^ (32 - 16)) with 65536. lia.
Qed.

(** ** Rows of a core state *)
Definition r0 (st : list N) : m128 := slice st 0 4.
Definition r1 (st : list N) : m128 := slice st 4 4.
Definition r2 (st : list N) : m128 := slice st 8 4.
Definition r3 (st : list N) : m128 := slice st 12 4.
Definition rows (st : list N) : list m128 := [r0 st; r1 st; r2 st; r3 st].

Lemma rows_concat st : length st = 16%nat -> concat (rows st) = st.
Proof. intros H. destr16 st H. reflexivity. Qed.

Lemma rows_words st : length st = 16%nat -> r0 st ++ r1 st ++ r2 st ++ r3 st = st.
Proof. intros H. destr16 st H. reflexivity. Qed.

Lemma rows_bytes st : length st = 16%nat ->
  bytes_of_words (r0 st) ++ bytes_of_words (r1 st) ++ bytes_of_words (r2 st) ++ bytes_of_words (r3 st)
  = bytes_of_words st.
Proof. intros H. rewrite <- !bytes_of_words_app, rows_words by assumption. reflexivity. Qed.

(** One add-xor-rotate step and the two conventions of (un)diagonalisation. *)
Definition canon_axr : list m128 -> list m128 := on4 (fun a b c d =>
  let a := map2 add32 a b in
  let d := vrot 16 (map2 xor32 d a) in
  let c := map2 add32 c d in
  let b := vrot 12 (map2 xor32 b c) in
  let a := map2 add32 a b in
  let d := vrot 8 (map2 xor32 d a) in
  let c := map2 add32 c d in
  let b := vrot 7 (map2 xor32 b c) in
  [a; b; c; d]).

Transparent qa qb qc qd.
Lemma canon_axr_eq a0 a1 a2 a3 b0 b1 b2 b3 c0 c1 c2 c3 d0 d1 d2 d3 :
  canon_axr [[a0;a1;a2;a3];[b0;b1;b2;b3];[c0;c1;c2;c3];[d0;d1;d2;d3]] =
  [[qa a0 b0 c0 d0; qa a1 b1 c1 d1; qa a2 b2 c2 d2; qa a3 b3 c3 d3];
   [qb a0 b0 c0 d0; qb a1 b1 c1 d1; qb a2 b2 c2 d2; qb a3 b3 c3 d3];
   [qc a0 b0 c0 d0; qc a1 b1 c1 d1; qc a2 b2 c2 d2; qc a3 b3 c3 d3];
   [qd a0 b0 c0 d0; qd a1 b1 c1 d1; qd a2 b2 c2 d2; qd a3 b3 c3 d3]].
Proof. cbv [canon_axr on4 map2 vrot map qa qb qc qd q_a1 q_b1 q_c1 q_d1]. reflexivity. Qed.
Opaque qa qb qc qd.
Opaque canon_axr.

Lemma shuf39 x0 x1 x2 x3 : mm_shuffle_epi32 [x0;x1;x2;x3] 0x39 = [x1;x2;x3;x0]. Proof. reflexivity. Qed.
Lemma shuf4E x0 x1 x2 x3 : mm_shuffle_epi32 [x0;x1;x2;x3] 0x4E = [x2;x3;x0;x1]. Proof. reflexivity. Qed.
Lemma shuf93 x0 x1 x2 x3 : mm_shuffle_epi32 [x0;x1;x2;x3] 0x93 = [x3;x0;x1;x2]. Proof. reflexivity. Qed.

(** x86 convention: rotate rows c, d, a around b. *)
Definition x86_r2c : list m128 -> list m128 := on4 (fun a b c d =>
  [mm_shuffle_epi32 a 0x93; b; mm_shuffle_epi32 c 0x39; mm_shuffle_epi32 d 0x4E]).
Definition x86_c2r : list m128 -> list m128 := on4 (fun a b c d =>
  [mm_shuffle_epi32 a 0x39; b; mm_shuffle_epi32 c 0x93; mm_shuffle_epi32 d 0x4E]).
Definition x86_dqr (e : list m128) : list m128 := x86_c2r (canon_axr (x86_r2c (canon_axr e))).

Lemma x86_dqr_rows st : length st = 16%nat -> x86_dqr (rows st) = rows (double_round st).
Proof.
  intros H. destr16 st H. rewrite double_round_eq. cbv zeta.
  unfold rows, r0, r1, r2, r3, slice. cbn [firstn skipn].
  unfold x86_dqr. rewrite canon_axr_eq. unfold x86_r2c at 1. cbn [on4].
  rewrite shuf39, shuf4E, shuf93, canon_axr_eq. unfold x86_c2r. cbn [on4].
  rewrite shuf39, shuf4E, shuf93. reflexivity.
Qed.

(** NEON convention: rotate rows b, c, d. *)
Definition arm_dqr (e : list m128) : list m128 :=
  on4 (fun a b c d => [a; vextq_u32 b b 3; vextq_u32 c c 2; vextq_u32 d d 1])
    (canon_axr (on4 (fun a b c d => [a; vextq_u32 b b 1; vextq_u32 c c 2; vextq_u32 d d 3]) (canon_axr e))).

Lemma arm_dqr_rows st : length st = 16%nat -> arm_dqr (rows st) = rows (double_round st).
Proof.
  intros H. destr16 st H. rewrite double_round_eq. cbv zeta.
  unfold rows, r0, r1, r2, r3, slice. cbn [firstn skipn].
  unfold arm_dqr. rewrite canon_axr_eq. cbn [on4].
  unfold vextq_u32. cbn [app skipn firstn]. rewrite canon_axr_eq. cbn [on4].
  cbn [app skipn firstn]. reflexivity.
Qed.

(** As a rewriting lemma: the kernel must not compare [double_round] unfoldings. *)
Lemma iter_n_S {A} n (f : A -> A) x : iter_n (S n) f x = iter_n n f (f x).
Proof. reflexivity. Qed.

(** Iterating over the rows of several states. *)
Lemma iter_rows (f : list m128 -> list m128) n st :
  (forall st, length st = 16%nat -> f (rows st) = rows (double_round st)) -> length st = 16%nat ->
  iter_n n f (rows st) = rows (iter_n n double_round st).
Proof.
  intros Hf. revert st; induction n as [|n IH]; intros st H; [reflexivity|].
  rewrite !iter_n_S, Hf by assumption. apply IH. apply double_round_wf; assumption.
Qed.

Lemma iter_n_map {A B} (F : list B -> list B) (f : B -> B) (g : A -> B) n (l : list A) :
  (forall l, F l = map f l) -> iter_n n F (map g l) = map (fun x => iter_n n f (g x)) l.
Proof.
  intros HF. revert g; induction n as [|n IH]; intros g; [reflexivity|].
  rewrite iter_n_S, HF, map_map, (IH (fun x => f (g x))). apply map_ext. intros x. symmetry. apply iter_n_S.
Qed.

(** Feed-forward on rows. *)
Lemma zip_add32_map2 a b : length a = length b -> zip_add32 a b = map2 add32 a b.
Proof.
  revert b; induction a as [|x a IH]; intros [|y b] H; cbn in H; try discriminate; [reflexivity|].
  cbn [zip_add32 map2]. rewrite IH by congruence. reflexivity.
Qed.
Lemma map2_slice {A B C} (f : A -> B -> C) lo n : forall a b,
  map2 f (slice a lo n) (slice b lo n) = slice (map2 f a b) lo n.
Proof.
  unfold slice. induction lo as [|lo IH]; intros a b.
  - cbn [skipn]. revert a b; induction n as [|n IHn]; intros [|x a] [|y b]; cbn [firstn map2]; try reflexivity.
    rewrite IHn. reflexivity.
  - destruct a as [|x a], b as [|y b]; cbn [skipn map2].
    + rewrite !firstn_nil. reflexivity.
    + rewrite !firstn_nil. reflexivity.
    + rewrite !firstn_nil. destruct (firstn n (skipn lo a)); reflexivity.
    + apply IH.
Qed.
Lemma iter_dr_length n st : length st = 16%nat -> length (iter_n n double_round st) = 16%nat.
Proof.
  intros H. apply (iter_n_inv (fun s => length s = 16%nat)); [assumption|].
  intros y Hy. apply double_round_wf; assumption.
Qed.
Lemma run_rounds_map2 n st : length st = 16%nat ->
  run_rounds n st = map2 add32 (iter_n n double_round st) st.
Proof. intros H. apply zip_add32_map2. rewrite iter_dr_length; congruence. Qed.
Lemma run_rounds_length n st : length st = 16%nat -> length (run_rounds n st) = 16%nat.
Proof. intros H. unfold run_rounds. rewrite zip_add32_length. apply iter_dr_length; assumption. Qed.

Lemma ff_row lo n st : length st = 16%nat ->
  map2 add32 (slice (iter_n n double_round st) lo 4) (slice st lo 4) = slice (run_rounds n st) lo 4.
Proof. intros H. rewrite run_rounds_map2 by assumption. apply map2_slice. Qed.
Lemma ff_r0 n st : length st = 16%nat -> map2 add32 (r0 (iter_n n double_round st)) (r0 st) = r0 (run_rounds n st).
Proof. apply ff_row. Qed.
Lemma ff_r1 n st : length st = 16%nat -> map2 add32 (r1 (iter_n n double_round st)) (r1 st) = r1 (run_rounds n st).
Proof. apply ff_row. Qed.
Lemma ff_r2 n st : length st = 16%nat -> map2 add32 (r2 (iter_n n double_round st)) (r2 st) = r2 (run_rounds n st).
Proof. apply ff_row. Qed.
Lemma ff_r3 n st : length st = 16%nat -> map2 add32 (r3 (iter_n n double_round st)) (r3 st) = r3 (run_rounds n st).
Proof. apply ff_row. Qed.

(** ** Counter rows *)
Lemma r0_adv v k st : length st = 16%nat -> r0 (adv v k st) = r0 st.
Proof. intros H. destr16 st H. destruct v; reflexivity. Qed.
Lemma r1_adv v k st : length st = 16%nat -> r1 (adv v k st) = r1 st.
Proof. intros H. destr16 st H. destruct v; reflexivity. Qed.
Lemma r2_adv v k st : length st = 16%nat -> r2 (adv v k st) = r2 st.
Proof. intros H. destr16 st H. destruct v; reflexivity. Qed.

Lemma r3_add32 k st : wf16 st -> map2 add32 (r3 st) [k mod M32; 0; 0; 0] = r3 (adv Ietf k st).
Proof.
  intros [Hl Hw]. destr16 st Hl. unfold words in Hw. inv_forall. unfold W32 in *.
  unfold r3, slice, adv, get. cbn [upd nth skipn firstn map2].
  unfold add32. rewrite !N.add_0_r, N.add_mod_idemp_r by discriminate.
  rewrite (N.mod_small x12), (N.mod_small x13), (N.mod_small x14) by assumption. reflexivity.
Qed.

Definition add64_lanes (a b : m128) : m128 :=
  match a, b with
  | [a0; a1; a2; a3], [b0; b1; b2; b3] =>
      let s0 := (a0 + M32 * a1 + (b0 + M32 * b1)) mod M64 in
      let s1 := (a2 + M32 * a3 + (b2 + M32 * b3)) mod M64 in
      [s0 mod M32; s0 / M32; s1 mod M32; s1 / M32]
  | _, _ => []
  end.
Lemma r3_add64 k st : wf16 st -> add64_lanes (r3 st) [k mod M32; (k / M32) mod M32; 0; 0] = r3 (adv Legacy k st).
Proof.
  intros [Hl Hw]. destr16 st Hl. unfold words in Hw. inv_forall. unfold W32 in *.
  unfold r3, slice, adv, ctr64, get. cbn [upd nth skipn firstn]. unfold add64_lanes. cbv zeta.
  replace ((x11 + M32 * x12 + (k mod M32 + M32 * ((k / M32) mod M32))) mod M64)
    with ((x11 + M32 * x12 + k) mod M64) by lia.
  replace ((x13 + M32 * x14 + (0 + M32 * 0)) mod M64) with (x13 + M32 * x14) by lia.
  replace ((x13 + M32 * x14) mod M32) with x13 by lia.
  replace ((x13 + M32 * x14) / M32) with x14 by lia. reflexivity.
Qed.

(** Counter rows suffice to rebuild the advanced state. *)
Lemma store_ctr v k st : length st = 16%nat ->
  match v with
  | Ietf => upd st 12 (get (r3 (adv Ietf k st)) 0)
  | Legacy => upd (upd st 12 (get (r3 (adv Legacy k st)) 0)) 13 (get (r3 (adv Legacy k st)) 1)
  end = adv v k st.
Proof. intros H. destr16 st H. destruct v; reflexivity. Qed.
Lemma store_row3 v k st : length st = 16%nat -> firstn 12 st ++ r3 (adv v k st) = adv v k st.
Proof. intros H. destr16 st H. destruct v; reflexivity. Qed.

Lemma adv_length16 v k st : wf16 st -> length (adv v k st) = 16%nat.
Proof. intros [H _]. rewrite adv_length. assumption. Qed.

(** ** Wide registers: [cols sts] holds one state per 128-bit group. *)
Definition cols (sts : list (list N)) : list (list m128) :=
  [map r0 sts; map r1 sts; map r2 sts; map r3 sts].

Definition all16 (sts : list (list N)) : Prop := Forall (fun s => length s = 16%nat) sts.

Lemma all16_dr sts : all16 sts -> all16 (map double_round sts).
Proof.
  unfold all16. rewrite Forall_map. apply Forall_impl. intros s H. apply double_round_wf; assumption.
Qed.

(** Stated for any step [dr] (instantiated with [double_round]). *)
Lemma iter_cols (dr : list N -> list N) (F : list (list m128) -> list (list m128)) (P : list (list N) -> Prop) n sts :
  (forall sts, P sts -> F (cols sts) = cols (map dr sts)) ->
  (forall sts, P sts -> P (map dr sts)) -> P sts ->
  iter_n n F (cols sts) = cols (map (iter_n n dr) sts).
Proof.
  intros HF HP. revert sts; induction n as [|n IH]; intros sts H.
  - cbn [iter_n]. rewrite map_id. reflexivity.
  - rewrite iter_n_S, HF, IH by auto. rewrite map_map. reflexivity.
Qed.

(** Feed-forward on wide registers. *)
Lemma ff_cols n sts : all16 sts ->
  map2 (map2 (map2 add32)) (cols (map (iter_n n double_round) sts)) (cols sts) = cols (map (run_rounds n) sts).
Proof.
  intros H. unfold cols. cbn [map2]. rewrite !map_map.
  assert (E : forall r : list N -> m128, (forall s, length s = 16%nat ->
      map2 add32 (r (iter_n n double_round s)) (r s) = r (run_rounds n s)) ->
    map2 (map2 add32) (map (fun x => r (iter_n n double_round x)) sts) (map r sts)
    = map (fun x => r (run_rounds n x)) sts).
  { intros r Hr. rewrite map2_map_map. apply map_ext_in. intros s Hs. apply Hr.
    unfold all16 in H. rewrite Forall_forall in H. auto. }
  rewrite !E; [reflexivity| | | |]; intros s Hs;
    [apply ff_r3 | apply ff_r2 | apply ff_r1 | apply ff_r0]; assumption.
Qed.

(** Transposition: [es] is a list of four-row states, [T es] the four wide registers. *)
Definition T (es : list (list m128)) : list (list m128) :=
  [map (fun e => nth 0 e []) es; map (fun e => nth 1 e []) es;
   map (fun e => nth 2 e []) es; map (fun e => nth 3 e []) es].
Lemma cols_T sts : cols sts = T (map rows sts).
Proof. unfold T. rewrite !map_map. reflexivity. Qed.

(** Four rows of four lanes. *)
Definition e4 (e : list m128) : Prop := length e = 4%nat /\ Forall (fun r => length r = 4%nat) e.
Lemma rows_e4 st : length st = 16%nat -> e4 (rows st).
Proof. intros H. destr16 st H. split; [reflexivity|]. repeat constructor. Qed.

Lemma e4_inv e : e4 e -> exists a b c d, e = [a; b; c; d] /\ length a = 4%nat /\ length b = 4%nat
  /\ length c = 4%nat /\ length d = 4%nat.
Proof.
  intros [Hl HF]. destruct e as [|a [|b [|c [|d [|]]]]]; cbn in Hl; try discriminate.
  inv_forall. exists a, b, c, d. auto.
Qed.

Lemma map2_length {A B C} (f : A -> B -> C) a b : length a = length b -> length (map2 f a b) = length a.
Proof.
  revert b; induction a as [|x a IH]; intros [|y b] H; cbn in H; try discriminate; [reflexivity|].
  cbn [map2 length]. rewrite IH by congruence. reflexivity.
Qed.
Lemma vrot_length r v : length (vrot r v) = length v.
Proof. apply map_length. Qed.

(** Rotations on lanes. *)
Ltac destr4 v H :=
  let x := fresh "l" in let y := fresh "l" in let z := fresh "l" in let w := fresh "l" in
  destruct v as [|x [|y [|z [|w [|]]]]]; cbn in H; try discriminate H.

Lemma rows_adv v k st : length st = 16%nat -> rows (adv v k st) = [r0 st; r1 st; r2 st; r3 (adv v k st)].
Proof. intros H. unfold rows. rewrite r0_adv, r1_adv, r2_adv by assumption. reflexivity. Qed.

Lemma store_rows st : length st = 16%nat -> flat_map (fun i => mm_storeu (nth i (rows st) [])) (seq 0 4) = bytes_of_words st.
Proof.
  intros H. cbn [flat_map seq nth rows]. unfold mm_storeu. rewrite app_nil_r. apply rows_bytes. assumption.
Qed.

Lemma flat_map_map' {A B C} (f : B -> list C) (g : A -> B) l : flat_map f (map g l) = flat_map (fun x => f (g x)) l.
Proof. rewrite !flat_map_concat_map, map_map. reflexivity. Qed.

Lemma nth_map_seq {A} (f : nat -> A) k i d : (i < k)%nat -> nth i (map f (seq 0 k)) d = f i.
Proof.
  intros H. rewrite nth_indep with (d' := f 0%nat) by (rewrite map_length, seq_length; assumption).
  rewrite map_nth, seq_nth by assumption. reflexivity.
Qed.

Lemma flat_map_ext_in' {A B} (f g : A -> list B) l : (forall x, In x l -> f x = g x) -> flat_map f l = flat_map g l.
Proof. intros H. rewrite !flat_map_concat_map. f_equal. apply map_ext_in. assumption. Qed.

(** The [k] blocks starting at state [st], as words. *)
Definition words_from (v : variant) (n k : nat) (st : list N) : list N :=
  flat_map (fun i => run_rounds n (adv v (N.of_nat i) st)) (seq 0 k).


Ltac conc :=
  repeat match goal with
  | |- context [N.testbit ?a 7] => let b := eval vm_compute in (N.testbit a 7) in change (N.testbit a 7) with b
  | |- context [N.to_nat (N.land ?a 15)] =>
      let b := eval vm_compute in (N.to_nat (N.land a 15)) in change (N.to_nat (N.land a 15)) with b
  end.
Lemma shuffle8_rot16 v m : length v = 4%nat ->
  bytes_of_words m = [2; 3; 0; 1; 6; 7; 4; 5; 10; 11; 8; 9; 14; 15; 12; 13] -> mm_shuffle_epi8 v m = vrot 16 v.
Proof.
  intros H Hm. destr4 v H. unfold mm_shuffle_epi8. rewrite Hm. cbn [map]. conc. cbv iota.
  unfold bytes_of_words. cbn [flat_map to_le app get nth]. unfold get. cbn [nth words_of_bytes from_le].
  rewrite !byte_rot16. reflexivity.
Qed.
Lemma shuffle8_rot8 v m : length v = 4%nat ->
  bytes_of_words m = [3; 0; 1; 2; 7; 4; 5; 6; 11; 8; 9; 10; 15; 12; 13; 14] -> mm_shuffle_epi8 v m = vrot 8 v.
Proof.
  intros H Hm. destr4 v H. unfold mm_shuffle_epi8. rewrite Hm. cbn [map]. conc. cbv iota.
  unfold bytes_of_words. cbn [flat_map to_le app get nth]. unfold get. cbn [nth words_of_bytes from_le].
  rewrite !byte_rot8. reflexivity.
Qed.
