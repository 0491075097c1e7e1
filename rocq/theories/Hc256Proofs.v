(** HC-256: the model refines the specification. *)
From Verif Require Import Word WordLemmas Res SpecHC256 Hc256.
From Coq Require Import ZArith Lia ZifyBool ZifyNat ZifyN.
Ltac Zify.zify_post_hook ::= Z.div_mod_to_equations.

(** Widths of [usize]. *)
Definition usize_ok (usz : N) : Prop := usz = 65536 \/ usz = M32 \/ usz = M64.

(** ** Word operations *)
Lemma rotr_spec x n : x < M32 -> n <= 32 -> rotr32 x n = hc_rotr x n.
Proof.
  intros Hx Hn. unfold rotr32, hc_rotr. rewrite rotl32_arith by lia. rewrite mul_pow2_mod by lia.
  rewrite <- M32_pow, (N.mod_small x M32) by exact Hx. replace (32 - (32 - n)) with n by lia. apply N.add_comm.
Qed.
Lemma rotr_lt x n : n <= 32 -> rotr32 x n < M32.
Proof. intros H. apply rotl32_lt. lia. Qed.
Lemma shr_spec x n : N.shiftr x n = hc_shr x n.
Proof. apply N.shiftr_div_pow2. Qed.
Lemma shr_lt x n : x < M32 -> N.shiftr x n < M32.
Proof.
  intros H. rewrite N.shiftr_div_pow2. apply N.le_lt_trans with x; [|exact H].
  apply N.div_le_upper_bound; [apply pow2_nz|]. pose proof (pow2_nz n). nia.
Qed.
Lemma lxor32_lt a b : a < M32 -> b < M32 -> N.lxor a b < M32.
Proof. apply xor32_lt. Qed.
Lemma f1_spec x : x < M32 -> f1 x = hc_f1 x.
Proof. intros H. unfold f1, hc_f1. rewrite !rotr_spec, shr_spec by (try exact H; lia). reflexivity. Qed.
Lemma f2_spec x : x < M32 -> f2 x = hc_f2 x.
Proof. intros H. unfold f2, hc_f2. rewrite !rotr_spec, shr_spec by (try exact H; lia). reflexivity. Qed.
Lemma land_1023 x : N.land x 1023 = x mod 1024.
Proof. change 1023 with (N.ones 10). apply (N.land_ones x 10). Qed.
Lemma land_2047 x : N.land x (2048 - 1) = x mod 2048.
Proof. change (2048 - 1) with (N.ones 11). apply (N.land_ones x 11). Qed.
Lemma land_255 x : N.land x 0xff = x mod 256.
Proof. change 0xff with (N.ones 8). apply (N.land_ones x 8). Qed.
Lemma add_spec a b : add32 a b = hc_add a b.
Proof. reflexivity. Qed.
Lemma hc_add_lt a b : hc_add a b < M32.
Proof. apply N.mod_lt. discriminate. Qed.
Lemma wsub_spec usz j d : usize_ok usz -> j < 1024 -> d <= 1024 ->
  N.land (wsub usz j d) TABLE_MASK = hc_sub j d.
Proof.
  intros Hu Hj Hd. unfold TABLE_MASK. rewrite land_1023. unfold wsub, hc_sub.
  destruct Hu as [-> | [-> | ->]]; lia.
Qed.
Lemma hc_sub_lt a b : hc_sub a b < 1024.
Proof. apply N.mod_lt. discriminate. Qed.

(** ** Tables *)
Definition tab (l : list N) (F : N -> N) : Prop :=
  length l = 1024%nat /\ words l /\ forall x, x < 1024 -> nth (N.to_nat x) l 0 = F x.
Lemma tab_idx l F x : tab l F -> x < 1024 -> idx l x = Ok (F x).
Proof. intros (Hl & _ & E) Hx. rewrite idx_ok by lia. rewrite E by exact Hx. reflexivity. Qed.
Lemma tab_lt l F x : tab l F -> x < 1024 -> F x < M32.
Proof.
  intros (Hl & Hw & E) Hx. rewrite <- E by exact Hx. apply (proj1 (Forall_forall _ _) Hw), nth_In. lia.
Qed.
Lemma tab_upd l F j v : tab l F -> j < 1024 -> v < M32 ->
  set_idx l j v = Ok (upd l (N.to_nat j) v) /\ tab (upd l (N.to_nat j) v) (hc_upd F j v).
Proof.
  intros (Hl & Hw & E) Hj Hv. split; [apply set_idx_ok; lia|]. split; [|split].
  - rewrite upd_length. exact Hl.
  - apply Forall_upd; assumption.
  - intros x Hx. unfold hc_upd. fold (get (upd l (N.to_nat j) v) (N.to_nat x)).
    destruct (N.eqb_spec x j) as [->|Hne]; [apply get_upd_eq; lia|].
    rewrite get_upd_neq by lia. apply E, Hx.
Qed.
Lemma g_ok l F x y : tab l F -> x < M32 -> y < M32 -> g_ l x y = Ok (hc_g F x y).
Proof.
  intros H Hx Hy. unfold g_. unfold TABLE_MASK. rewrite land_1023.
  rewrite (tab_idx l F) by (try exact H; apply N.mod_lt; discriminate). cbn [bind].
  rewrite !rotr_spec by (try assumption; lia). reflexivity.
Qed.
Lemma hc_byte_lt x k : hc_byte x k < 256.
Proof. apply N.mod_lt. discriminate. Qed.
Lemma h_ok ck l F x : tab l F -> h_ ck l x = Ok (hc_h F x).
Proof.
  intros H. unfold h_. rewrite !land_255, !N.shiftr_div_pow2.
  replace (x mod 256) with (hc_byte x 0) by (unfold hc_byte; rewrite N.pow_0_r, N.div_1_r; reflexivity).
  change (x / 2 ^ 8 mod 256) with (hc_byte x 1).
  change (x / 2 ^ 16 mod 256) with (hc_byte x 2).
  change (x / 2 ^ 24 mod 256) with (hc_byte x 3).
  pose proof (hc_byte_lt x 0). pose proof (hc_byte_lt x 1). pose proof (hc_byte_lt x 2). pose proof (hc_byte_lt x 3).
  rewrite !add_ck_ok by lia. cbn [bind].
  rewrite !(tab_idx l F) by (try exact H; lia). reflexivity.
Qed.

(** ** One step *)
Definition hrel (s : hc) (t : (N -> N) * (N -> N)) (i : N) : Prop :=
  tab (h_p s) (fst t) /\ tab (h_q s) (snd t) /\ h_idx s = i mod 2048.
Lemma gen_word_ok ck usz s t i : usize_ok usz -> hrel s t i ->
  exists s', gen_word ck usz s = Ok (fst (hc_step i t), s') /\ hrel s' (snd (hc_step i t)) (i + 1).
Proof.
  intros Hu (HP & HQ & Hi). destruct t as [P Q]. cbn [fst snd] in *. unfold gen_word, hc_step.
  assert (Ej : N.land (h_idx s) TABLE_MASK = i mod 1024).
  { unfold TABLE_MASK. rewrite land_1023, Hi. lia. }
  rewrite Ej. assert (Hj : i mod 1024 < 1024) by (apply N.mod_lt; discriminate).
  set (j := i mod 1024) in *. clearbody j.
  rewrite !(wsub_spec usz j) by (try assumption; lia).
  rewrite add_ck_ok by (rewrite Hi; lia). cbn [bind h_p h_q h_idx].
  rewrite land_2047. assert (Enx : (h_idx s + 1) mod 2048 = (i + 1) mod 2048) by (rewrite Hi; lia).
  rewrite Enx. rewrite Hi. unfold g1, g2, h1, h2. cbn [h_p h_q h_idx].
  pose proof (hc_sub_lt j 3). pose proof (hc_sub_lt j 10). pose proof (hc_sub_lt j 12). pose proof (hc_sub_lt j 1023).
  destruct (i mod 2048 <? 1024).
  - rewrite !(tab_idx (h_p s) P) by assumption. cbn [bind].
    rewrite (g_ok (h_q s) Q) by (try apply (tab_lt (h_p s)); assumption). cbn [bind]. rewrite !add_spec.
    set (v := hc_add _ _). destruct (tab_upd (h_p s) P j v HP Hj (hc_add_lt _ _)) as [Es HP'].
    rewrite Es. cbn [bind h_p h_q h_idx]. rewrite !(tab_idx _ _ _ HP') by assumption. cbn [bind].
    rewrite (h_ok ck (h_q s) Q) by exact HQ. cbn [bind].
    rewrite ?(tab_idx _ _ _ HP') by assumption. cbn [bind].
    eexists. split; [reflexivity|]. split; [exact HP'|]. split; [exact HQ|]. reflexivity.
  - rewrite !(tab_idx (h_q s) Q) by assumption. cbn [bind].
    rewrite (g_ok (h_p s) P) by (try apply (tab_lt (h_q s)); assumption). cbn [bind]. rewrite !add_spec.
    set (v := hc_add _ _). destruct (tab_upd (h_q s) Q j v HQ Hj (hc_add_lt _ _)) as [Es HQ'].
    rewrite Es. cbn [bind h_p h_q h_idx]. rewrite !(tab_idx _ _ _ HQ') by assumption. cbn [bind].
    rewrite (h_ok ck (h_p s) P) by exact HP. cbn [bind].
    rewrite ?(tab_idx _ _ _ HQ') by assumption. cbn [bind].
    eexists. split; [reflexivity|]. split; [exact HP|]. split; [exact HQ'|]. reflexivity.
Qed.
Lemma gen_iter_ok ck usz s t n : usize_ok usz -> hrel s t 0 ->
  exists s', for_ (seq 0 n) (fun _ s => do (_, s) <- gen_word ck usz s; Ok s) s = Ok s' /\ hrel s' (hc_run t n) (N.of_nat n).
Proof.
  intros Hu H. induction n as [|n IH]; [exists s; auto|].
  destruct IH as (s1 & E1 & H1). rewrite seq_S, for_app, E1. cbn [bind for_ Nat.add].
  destruct (gen_word_ok ck usz s1 _ _ Hu H1) as (s2 & E2 & H2). rewrite E2. cbn [bind].
  exists s2. split; [reflexivity|]. cbn [hc_run]. replace (N.of_nat (S n)) with (N.of_nat n + 1) by lia. exact H2.
Qed.
Lemma hc_write_ok ck usz k t : usize_ok usz -> forall n s, hrel s (hc_run t n) (N.of_nat n) ->
  exists s', hc_write ck usz k s
    = Ok (flat_map (fun i => to_le 4 (fst (hc_step (N.of_nat i) (hc_run t i)))) (seq n k), s')
  /\ hrel s' (hc_run t (n + k)) (N.of_nat (n + k)).
Proof.
  intros Hu. induction k as [|k IH]; intros n s H; cbn [hc_write seq flat_map].
  - exists s. rewrite Nat.add_0_r. auto.
  - destruct (gen_word_ok ck usz s _ _ Hu H) as (s1 & E1 & H1). rewrite E1. cbn [bind].
    destruct (IH (S n) s1) as (s2 & E2 & H2).
    { cbn [hc_run]. replace (N.of_nat (S n)) with (N.of_nat n + 1) by lia. exact H1. }
    rewrite E2. cbn [bind]. exists s2. split; [reflexivity|]. rewrite Nat.add_succ_r. exact H2.
Qed.

(** ** Expansion *)
Lemma hc_words_eq l : bytes l -> hc_words l = words_of_bytes l.
Proof.
  assert (H : forall n l, (length l < n)%nat -> hc_words l = words_of_bytes l); [|intros _; apply (H (S (length l))); lia].
  clear. induction n as [|n IH]; intros l Hl; [lia|].
  destruct l as [|a [|b [|c [|d t]]]]; try reflexivity. cbn [hc_words words_of_bytes length] in *. rewrite IH by lia.
  f_equal. unfold from_le. change (2 ^ 8) with 256. change (2 ^ 16) with 65536. change (2 ^ 24) with 16777216. lia.
Qed.

Section Expand.
  Context (key iv : list N) (Hkl : length key = 32%nat) (Hkb : bytes key) (Hil : length iv = 32%nat) (Hib : bytes iv).
  Let W := hc_W key iv.

  Lemma window0 : hc_window key iv 0 = words_of_bytes key ++ words_of_bytes iv.
  Proof. cbn [hc_window]. rewrite !hc_words_eq by assumption. reflexivity. Qed.
  Lemma window_wf i : length (hc_window key iv i) = 16%nat /\ words (hc_window key iv i).
  Proof.
    induction i as [|i [IHl IHw]].
    - rewrite window0. split.
      + rewrite app_length, (words_of_bytes_length 8 key), (words_of_bytes_length 8 iv) by assumption. reflexivity.
      + apply Forall_app. split; apply words_of_bytes_wf; assumption.
    - cbn [hc_window]. cbv zeta. destruct (hc_window key iv i) as [|w l]; [discriminate|]. cbn [tl]. split.
      + rewrite app_length. cbn in *. lia.
      + apply Forall_app. split; [inversion IHw; assumption|]. constructor; [apply hc_add_lt|constructor].
  Qed.
  Lemma window_tl k i : (k < 15)%nat -> nth k (hc_window key iv (S i)) 0 = nth (S k) (hc_window key iv i) 0.
  Proof.
    intros Hk. cbn [hc_window]. cbv zeta. destruct (window_wf i) as [Hl _].
    destruct (hc_window key iv i) as [|w l]; [discriminate|]. cbn [tl nth]. apply app_nth1. cbn in Hl. lia.
  Qed.
  Lemma window_nth k : forall i, (k < 16)%nat -> nth k (hc_window key iv i) 0 = W (i + k).
  Proof.
    induction k as [|k IH]; intros i Hk; [rewrite Nat.add_0_r; reflexivity|].
    rewrite <- window_tl by lia. rewrite IH by lia. f_equal. lia.
  Qed.
  Lemma W_lt i : W i < M32.
  Proof.
    unfold W, hc_W. destruct (window_wf i) as [Hl Hw]. apply (proj1 (Forall_forall _ _) Hw), nth_In. lia.
  Qed.
  Lemma W_init i : (i < 16)%nat -> W i = nth i (words_of_bytes key ++ words_of_bytes iv) 0.
  Proof. intros H. rewrite <- window0, window_nth by exact H. reflexivity. Qed.
  Lemma W_rec i : W (i + 16) =
    hc_add (hc_add (hc_add (hc_add (hc_f2 (W (i + 14))) (W (i + 9))) (hc_f1 (W (i + 1)))) (W i)) (N.of_nat i + 16).
  Proof.
    replace (i + 16)%nat with (S i + 15)%nat by lia. rewrite <- (window_nth 15 (S i)) by lia.
    cbn [hc_window]. cbv zeta. rewrite !window_nth by lia. rewrite Nat.add_0_r.
    assert (Ht : length (tl (hc_window key iv i)) = 15%nat).
    { destruct (window_wf i) as [Hl _]. destruct (hc_window key iv i) as [|w l]; [discriminate|]. cbn [tl]. cbn in Hl. lia. }
    rewrite app_nth2 by lia. rewrite Ht.
    reflexivity.
  Qed.

  (** The first [i] entries of [data] are those of W. *)
  Definition filled (i : nat) (data : list N) : Prop :=
    length data = 2660%nat /\ forall k, (k < i)%nat -> nth k data 0 = W k.
  Lemma filled_upd i data v : filled i data -> (i < 2660)%nat -> v = W i ->
    set_idx data (N.of_nat i) v = Ok (upd data i v) /\ filled (S i) (upd data i v).
  Proof.
    intros [Hl HE] Hi ->. split; [rewrite set_idx_ok by lia; rewrite Nat2N.id; reflexivity|]. split; [rewrite upd_length; exact Hl|].
    intros k Hk. fold (get (upd data i (W i)) k). destruct (Nat.eq_dec k i) as [->|Hne].
    - apply get_upd_eq. lia.
    - rewrite get_upd_neq by lia. apply HE. lia.
  Qed.
  Lemma le_word_ok l i : bytes l -> length l = 32%nat -> (i < 8)%nat ->
    le_word l (N.of_nat i) = Ok (nth i (words_of_bytes l) 0).
  Proof.
    intros Hb Hl Hi. fold (get (words_of_bytes l) i). rewrite get_word_of_bytes by lia. unfold le_word.
    rewrite !idx_ok by lia. cbn [bind]. rewrite !land_255.
    replace (N.to_nat (4 * N.of_nat i)) with (4 * i)%nat by lia.
    replace (N.to_nat (4 * N.of_nat i + 1)) with (4 * i + 1)%nat by lia.
    replace (N.to_nat (4 * N.of_nat i + 2)) with (4 * i + 2)%nat by lia.
    replace (N.to_nat (4 * N.of_nat i + 3)) with (4 * i + 3)%nat by lia.
    assert (Hs : slice l (4 * i) 4 = [nth (4 * i) l 0; nth (4 * i + 1) l 0; nth (4 * i + 2) l 0; nth (4 * i + 3) l 0]).
    { destruct (skipn (4 * i) l) as [|a [|b [|c [|d t]]]] eqn:E.
      1-4: apply (f_equal (@length N)) in E; rewrite skipn_length in E; cbn [length] in E; lia.
      unfold slice. rewrite E. cbn [firstn].
      assert (Hn : forall k, nth (4 * i + k) l 0 = nth k (a :: b :: c :: d :: t) 0).
      { intros k. rewrite <- E. clear. revert k. generalize (4 * i)%nat as m. intros m. revert l.
        induction m as [|m IH]; intros l k; [reflexivity|]. destruct l as [|x l]; [destruct k; reflexivity|]. apply IH. }
      rewrite <- (Nat.add_0_r (4 * i)) at 1. rewrite !Hn. reflexivity. }
    rewrite Hs. clear Hs. assert (Hlt : forall k, nth k l 0 < 256).
    { intros k. destruct (Nat.lt_ge_cases k (length l)) as [H|H]; [|rewrite nth_overflow by exact H; lia].
      apply (proj1 (Forall_forall _ _) Hb), nth_In, H. }
    rewrite !N.mod_small by apply Hlt.
    pose proof (Hlt (4 * i)%nat). pose proof (Hlt (4 * i + 1)%nat). pose proof (Hlt (4 * i + 2)%nat). pose proof (Hlt (4 * i + 3)%nat).
    generalize dependent (nth (4 * i) l 0). generalize dependent (nth (4 * i + 1) l 0).
    generalize dependent (nth (4 * i + 2) l 0). generalize dependent (nth (4 * i + 3) l 0). clear.
    intros d Hd c Hc b Hb a Ha. f_equal. unfold from_le.
    rewrite (N.lor_comm a). rewrite lor_shift_add by exact Ha.
    rewrite (N.lor_comm _ (N.shiftl c 16)). rewrite lor_shift_add by (change (2 ^ 16) with 65536; change (2 ^ 8) with 256; lia).
    rewrite (N.lor_comm _ (N.shiftl d 24)). rewrite lor_shift_add by (change (2 ^ 24) with 16777216; change (2 ^ 16) with 65536; change (2 ^ 8) with 256; lia).
    change (2 ^ 24) with 16777216; change (2 ^ 16) with 65536; change (2 ^ 8) with 256. lia.
  Qed.
  Lemma key_loop n : (n <= 8)%nat -> exists data,
    for_ (seq 0 n) (fun i data => do w <- le_word key (N.of_nat i); set_idx data (N.of_nat i) w) (repeat 0 (N.to_nat INIT_SIZE)) = Ok data
    /\ filled n data.
  Proof.
    induction n as [|n IH]; intros Hn.
    - eexists. split; [reflexivity|]. split; [rewrite repeat_length; reflexivity|]. intros k Hk. lia.
    - destruct (IH ltac:(lia)) as (data & E & H). rewrite seq_S, for_app, E. cbn [bind for_ Nat.add].
      rewrite le_word_ok by (try assumption; lia). cbn [bind].
      destruct (filled_upd n data (nth n (words_of_bytes key) 0) H ltac:(lia)) as [E1 H1].
      + rewrite W_init by lia. rewrite app_nth1 by (rewrite (words_of_bytes_length 8 key) by assumption; lia). reflexivity.
      + rewrite E1. cbn [bind for_]. eauto.
  Qed.
  Lemma iv_loop data n : filled 8 data -> (n <= 8)%nat -> exists data',
    for_ (seq 0 n) (fun i data => do w <- le_word iv (N.of_nat i); set_idx data (N.of_nat i + KEY_WORDS) w) data = Ok data'
    /\ filled (8 + n) data'.
  Proof.
    intros H0. induction n as [|n IH]; intros Hn.
    - eexists. split; [reflexivity|]. exact H0.
    - destruct (IH ltac:(lia)) as (data' & E & H). rewrite seq_S, for_app, E. cbn [bind for_ Nat.add].
      rewrite le_word_ok by (try assumption; lia). cbn [bind].
      destruct (filled_upd (8 + n) data' (nth n (words_of_bytes iv) 0) H ltac:(lia)) as [E1 H1].
      + rewrite W_init by lia. rewrite app_nth2 by (rewrite (words_of_bytes_length 8 key) by assumption; lia).
        rewrite (words_of_bytes_length 8 key) by assumption. f_equal. lia.
      + replace (N.of_nat n + KEY_WORDS) with (N.of_nat (8 + n)) by (unfold KEY_WORDS; lia).
        rewrite E1. cbn [bind for_]. replace (8 + S n)%nat with (S (8 + n)) by lia. eauto.
  Qed.
  Lemma expand_step_ok ck usz i data : filled i data -> (16 <= i < 2660)%nat ->
    expand_step ck usz i data = Ok (upd data i (W i)) /\ filled (S i) (upd data i (W i)).
  Proof.
    intros H Hi. destruct (filled_upd i data (W i) H ltac:(lia) eq_refl) as [E1 H1]. split; [|exact H1].
    rewrite <- E1. unfold expand_step. destruct H as [Hl HE]. rewrite !sub_ck_ok by lia. cbn [bind].
    rewrite !idx_ok by lia. cbn [bind]. rewrite !HE by lia. rewrite f1_spec, f2_spec by apply W_lt. rewrite !add_spec. f_equal.
    pose proof (W_rec (i - 16)) as ER. replace (i - 16 + 16)%nat with i in ER by lia. rewrite ER.
    replace (i - 16 + 14)%nat with (N.to_nat (N.of_nat i - 2)) by lia.
    replace (i - 16 + 9)%nat with (N.to_nat (N.of_nat i - 7)) by lia.
    replace (i - 16 + 1)%nat with (N.to_nat (N.of_nat i - 15)) by lia.
    replace (i - 16)%nat with (N.to_nat (N.of_nat i - 16)) at 1 by lia.
    assert (Ei : as_u32 (N.of_nat i) = N.of_nat (i - 16) + 16) by (unfold as_u32; rewrite N.mod_small; lia).
    rewrite Ei. reflexivity.
  Qed.
  Lemma expand_loop ck usz data n : filled 16 data -> (n <= 2644)%nat -> exists data',
    for_ (seq 16 n) (expand_step ck usz) data = Ok data' /\ filled (16 + n) data'.
  Proof.
    intros H0. induction n as [|n IH]; intros Hn.
    - eexists. split; [reflexivity|]. exact H0.
    - destruct (IH ltac:(lia)) as (data' & E & H). rewrite seq_S, for_app, E. cbn [bind for_].
      destruct (expand_step_ok ck usz (16 + n) data' H ltac:(lia)) as [E1 H1]. rewrite E1. cbn [bind for_].
      replace (16 + S n)%nat with (S (16 + n)) by lia. eauto.
  Qed.
  Lemma filled_slice data lo : filled 2660 data -> (lo + 1024 <= 2660)%nat ->
    slice_ck data lo 1024 = Ok (slice data lo 1024) /\ tab (slice data lo 1024) (fun x => W (N.to_nat x + lo)).
  Proof.
    intros [Hl HE] Hlo. split.
    - unfold slice_ck, assert_. destruct (lo + 1024 <=? length data)%nat eqn:E; [reflexivity|]. lia.
    - assert (Hn : forall k, (k < 1024)%nat -> nth k (slice data lo 1024) 0 = W (k + lo)).
      { intros k Hk. unfold slice. rewrite <- (firstn_skipn lo data) in HE.
        rewrite <- (HE (k + lo)%nat) by lia. rewrite app_nth2; rewrite firstn_length_le by lia; [|lia].
        replace (k + lo - lo)%nat with k by lia.
        rewrite <- (firstn_skipn 1024 (skipn lo data)) at 2. rewrite app_nth1; [reflexivity|].
        rewrite firstn_length, skipn_length. lia. }
      assert (Hlen : length (slice data lo 1024) = 1024%nat).
      { unfold slice. rewrite firstn_length, skipn_length. lia. }
      split; [exact Hlen|]. split.
      + apply Forall_forall. intros x Hx. destruct (In_nth _ _ 0 Hx) as (k & Hk & <-). rewrite Hn by lia. apply W_lt.
      + intros x Hx. apply Hn. lia.
  Qed.
  Lemma hc_new_ok ck usz : usize_ok usz ->
    exists s, hc_new ck usz key iv = Ok s /\ hrel s (hc_run (hc_init key iv) 0) 0.
  Proof.
    intros Hu. unfold hc_new. cbv zeta.
    change (N.to_nat KEY_WORDS) with 8%nat. change (N.to_nat IV_WORDS) with 8%nat.
    destruct (key_loop 8 (le_n _)) as (d1 & E1 & H1). rewrite E1. cbn [bind].
    destruct (iv_loop d1 8 H1 (le_n _)) as (d2 & E2 & H2). rewrite E2. cbn [bind].
    destruct (expand_loop ck usz d2 2644 H2 (le_n _)) as (d3 & E3 & H3). rewrite E3. cbn [bind].
    destruct (filled_slice d3 512 H3 ltac:(lia)) as [E4 H4]. rewrite E4. cbn [bind].
    destruct (filled_slice d3 1536 H3 ltac:(lia)) as [E5 H5]. rewrite E5. cbn [bind].
    destruct (gen_iter_ok ck usz {| h_p := slice d3 512 1024; h_q := slice d3 1536 1024; h_idx := 0 |} (hc_tables key iv) 4096 Hu) as (s & E6 & H6).
    { split; [exact H4|]. split; [exact H5|]. reflexivity. }
    exists s. split; [exact E6|]. exact H6.
  Qed.
End Expand.

