(** C72: the alternating states, on which the rounds of Salsa do nothing.
    C73: Rabbit's next-state function is not injective: almost every state has a twin with
    the same future, and some states have no past. *)
From Verif Require Import Word WordLemmas Res ChaChaCore ChaChaBackend ChaChaSoft ChaChaProofs ChaChaDispatchProofs Salsa SpecSalsa SalsaProofs
  SpecRabbit Rabbit RabbitProofs PropertiesRabbit PropertiesRabbitIv PropCommon.
From Coq Require Import ZArith Lia ZifyBool ZifyNat ZifyN FinFun.
Ltac Zify.zify_post_hook ::= Z.div_mod_to_equations.
Local Open Scope N_scope.

(** ** C72 *)
(** Minus, modulo 2^32. *)
Definition minus32 (a : N) : N := (2 ^ 32 - a) mod 2 ^ 32.
(** [a] and [-a] as the fields of a chessboard. *)
Definition chessboard (a : N) : list N :=
  map (fun i => if Nat.even (i / 4 + i) then a else minus32 a) (seq 0 16).

Lemma minus_lt a : minus32 a < M32. Proof. apply N.mod_lt. discriminate. Qed.
Lemma minus_minus a : a < M32 -> minus32 (minus32 a) = a. Proof. unfold minus32. change (2 ^ 32) with M32. intros H. lia. Qed.
Lemma add_minus a : a < M32 -> add32 a (minus32 a) = 0 /\ add32 (minus32 a) a = 0.
Proof. unfold minus32, add32. change (2 ^ 32) with M32. intros H. split; lia. Qed.
Lemma sum_0 a b : a < M32 -> b < M32 -> add32 a b = 0 -> b = minus32 a.
Proof. unfold minus32, add32. change (2 ^ 32) with M32. intros. lia. Qed.
Lemma rot_0_iff w r : w < M32 -> 0 < r < 32 -> rotl32 w r = 0 -> w = 0.
Proof.
  intros Hw Hr E. rewrite rot_spec in E by lia. unfold rb_rot in E.
  assert (E1 : w * 2 ^ r mod 2 ^ 32 = 0) by (revert E; generalize (w * 2 ^ r mod 2 ^ 32) (w / 2 ^ (32 - r)); intros; lia).
  assert (E2 : w / 2 ^ (32 - r) = 0) by (revert E; generalize (w * 2 ^ r mod 2 ^ 32) (w / 2 ^ (32 - r)); intros; lia).
  clear E. apply N.div_small_iff in E2; [|apply N.pow_nonzero; discriminate].
  rewrite N.mod_small in E1.
  - apply N.eq_mul_0 in E1. destruct E1 as [E1|E1]; [exact E1|]. exfalso. revert E1. apply N.pow_nonzero. discriminate.
  - replace 32 with ((32 - r) + r) by lia. rewrite N.pow_add_r. apply N.mul_lt_mono_pos_r; [|exact E2].
    apply N.neq_0_lt_0, N.pow_nonzero. discriminate.
Qed.
Lemma xor_fix a w : N.lxor a w = a -> w = 0.
Proof. intros E. apply (f_equal (N.lxor a)) in E. rewrite <- N.lxor_assoc, N.lxor_nilpotent, N.lxor_0_l in E. exact E. Qed.

(** Exactly which four words a quarter round leaves alone. *)
Theorem C72_quarterround a b c d : a < 2 ^ 32 -> b < 2 ^ 32 -> c < 2 ^ 32 -> d < 2 ^ 32 ->
  ss_quarterround a b c d = (a, b, c, d) <-> b = minus32 a /\ c = a /\ d = minus32 a.
Proof.
  change (2 ^ 32) with M32. intros Ha Hb Hc Hd.
  assert (Ez : ss_quarterround a b c d = (z_a a b c d, z_b a b d, z_c a b c d, z_d a b c d)) by apply ss_quarterround_eq.
  rewrite Ez. with_strategy transparent [z_a z_b z_c z_d] unfold z_a, z_d, z_c, z_b. unfold xor32. split.
  - intros E. injection E as E0 E1 E2 E3. rewrite E1 in *. rewrite E2 in *. rewrite E3 in *.
    apply xor_fix, rot_0_iff in E0, E1, E2, E3; try (split; reflexivity); try apply add32_lt.
    apply sum_0 in E0, E1, E2, E3; try assumption. subst d. rewrite minus_minus in E0 by assumption.
    subst c. auto.
  - intros (-> & -> & ->). destruct (add_minus a Ha) as [P Q]. 
    assert (R7 : rotl32 0 7 = 0) by reflexivity. assert (R9 : rotl32 0 9 = 0) by reflexivity.
    assert (R13 : rotl32 0 13 = 0) by reflexivity. assert (R18 : rotl32 0 18 = 0) by reflexivity.
    repeat (rewrite ?P, ?Q, ?R7, ?R9, ?R13, ?R18, ?N.lxor_0_r). reflexivity.
Qed.
Print Assumptions C72_quarterround.

Lemma chess_eq a : chessboard a = let m := minus32 a in [a; m; a; m; m; a; m; a; a; m; a; m; m; a; m; a].
Proof. reflexivity. Qed.
Lemma chess_wf a : a < M32 -> wf16 (chessboard a).
Proof. intros H. pose proof (minus_lt a). split; [reflexivity|]. rewrite chess_eq. cbv zeta. unfold words. repeat (constructor; [assumption|]). constructor. Qed.
Lemma chess_round a : a < M32 -> s_double_round (chessboard a) = chessboard a.
Proof.
  intros H. pose proof (minus_lt a) as Hm. rewrite s_double_round_spec by reflexivity. rewrite chess_eq. cbv zeta.
  assert (Q1 : ss_quarterround a (minus32 a) a (minus32 a) = (a, minus32 a, a, minus32 a)) by (apply C72_quarterround; auto).
  with_strategy transparent [ss_doubleround] unfold ss_doubleround. unfold ss_columnround. rewrite !Q1. unfold ss_rowround. rewrite !Q1. reflexivity.
Qed.
(** The core doubles such a state, whatever the number of rounds; never a panic. *)
Theorem C72_core ck n a : a < 2 ^ 32 ->
  exists st', salsa_gen_ks_block ck n (from_raw_state (chessboard a)) = Ok (ss_bytes (map (fun w => (2 * w) mod 2 ^ 32) (chessboard a)), st').
Proof.
  change (2 ^ 32) with M32. intros H. pose proof (chess_wf a H) as Hwf. eexists. unfold from_raw_state. rewrite salsa_gen_ok.
  - rewrite <- ss_bytes_eq. unfold s_run_rounds. 
    assert (E : iter_n n s_double_round (chessboard a) = chessboard a).
    { induction n as [|n IH]; [reflexivity|]. rewrite iter_n_S_out, IH. apply chess_round. exact H. }
    rewrite E. rewrite chess_eq. cbv zeta. cbn [s_zip_add map]. unfold add32. rewrite !N.double_spec || idtac.
    replace (2 * a) with (a + a) by lia. replace (2 * minus32 a) with (minus32 a + minus32 a) by lia. reflexivity.
  - exact Hwf.
  - intros _. unfold s_ctr. rewrite chess_eq. cbv zeta. unfold get. cbn [nth]. unfold minus32. change (2 ^ 32) with M32. lia.
Qed.
Print Assumptions C72_core.
(** Cipher states are never alternating, at any position. *)
Theorem C72_unreachable key iv pos a : octets 32 key -> octets 8 iv -> pos < 2 ^ 64 ->
  salsa_set_pos (salsa_new key iv) pos <> chessboard a.
Proof.
  intros [Hk _] [Hi _] H E. rewrite salsa_new_eq in E by assumption. rewrite s_set_pos in E by assumption.
  assert (E0 := f_equal (fun l => get l 0) E). assert (E5 := f_equal (fun l => get l 5) E). clear E.
  revert E0 E5. rewrite chess_eq. cbv zeta. unfold s_state. unfold s_matrix. destruct (half_key key Hk) as [A1 A2].
  pose proof (words_of_bytes_length 2 iv Hi) as A3.
  set (k1 := words_of_bytes (firstn 16 key)) in *. set (k2 := words_of_bytes (skipn 16 key)) in *.
  set (i := words_of_bytes iv) in *. clearbody k1 k2 i. len4 k1 A1. len4 k2 A2. len2 i A3.
  cbn. congruence.
Qed.
Print Assumptions C72_unreachable.
Example C72_satisfiable : chessboard 1 = [1; 0xffffffff; 1; 0xffffffff; 0xffffffff; 1; 0xffffffff; 1; 1; 0xffffffff; 1; 0xffffffff; 0xffffffff; 1; 0xffffffff; 1]
  /\ octets 32 ex_key /\ octets 8 ex_nonce8.
Proof. checks. Qed.

(** ** C73 *)
Lemma next_eq ck s1 s2 : rwf s1 -> rwf s2 -> rb_next (to_spec s1) = rb_next (to_spec s2) -> next_state ck s1 = next_state ck s2.
Proof.
  intros H1 H2 E. destruct (next_state_ok ck s1 H1) as (a & Ea & _ & Sa). destruct (next_state_ok ck s2 H2) as (b & Eb & _ & Sb).
  rewrite Ea, Eb. f_equal. rewrite <- Sa, <- Sb in E. unfold to_spec in E. destruct a as [ax ac ab], b as [bx bc bb]. cbn [r_x r_c r_carry] in E. congruence.
Qed.
Lemma write_eq ck s1 s2 : next_state ck s1 = next_state ck s2 -> forall k, rabbit_write ck (S k) s1 = rabbit_write ck (S k) s2.
Proof. intros E k. cbn [rabbit_write]. unfold next_block. rewrite E. reflexivity. Qed.
(** The counters one step on depend on the sum of counters and carry only. *)
Lemma counters_sum c1 b1 c2 b2 : length c1 = 8%nat -> length c2 = 8%nat -> ctr_int c1 + b1 = ctr_int c2 + b2 ->
  rb_tab (rb_counter c1 b1) = rb_tab (rb_counter c2 b2) /\ rb_carry c1 b1 8 = rb_carry c2 b2 8.
Proof.
  intros L1 L2 E. pose proof (odometer c1 b1 L1) as O1. pose proof (odometer c2 b2 L2) as O2.
  assert (W : forall c b, words (rb_tab (rb_counter c b))).
  { intros c b. unfold rb_tab, words. apply Forall_forall. intros w Hw. apply in_map_iff in Hw. destruct Hw as (j & <- & _).
    unfold rb_counter, W32. apply N.mod_lt. discriminate. }
  pose proof (ctr_int_lt _ (W c1 b1)) as B1. pose proof (ctr_int_lt _ (W c2 b2)) as B2.
  change (M32 ^ N.of_nat (length (rb_tab (rb_counter c1 b1)))) with (2 ^ 256) in B1.
  change (M32 ^ N.of_nat (length (rb_tab (rb_counter c2 b2)))) with (2 ^ 256) in B2.
  assert (X : ctr_int (rb_tab (rb_counter c1 b1)) = ctr_int (rb_tab (rb_counter c2 b2)) /\ rb_carry c1 b1 8 = rb_carry c2 b2 8).
  { revert O1 O2 B1 B2 E. generalize (ctr_int rb_A), (ctr_int c1), (ctr_int c2), (ctr_int (rb_tab (rb_counter c1 b1))), (ctr_int (rb_tab (rb_counter c2 b2))),
      (rb_carry c1 b1 8), (rb_carry c2 b2 8), (2 ^ 256).
    intros A C1 C2 x1 x2 y1 y2 M O1 O2 B1 B2 E. assert (Ex : M * y1 + x1 = M * y2 + x2) by lia.
    destruct (N.div_mod_unique M y1 y2 x1 x2 B1 B2 Ex). auto. }
  split; [|apply X]. apply ctr_int_inj; try apply W; [reflexivity | apply X].
Qed.
(** [c - 1] and [c + 1], borrowing and carrying from word to word. *)
Fixpoint ctr_pred (c : list N) : list N :=
  match c with [] => [] | w :: c' => if w =? 0 then (M32 - 1) :: ctr_pred c' else (w - 1) :: c' end.
Fixpoint ctr_succ (c : list N) : list N :=
  match c with [] => [] | w :: c' => if w =? M32 - 1 then 0 :: ctr_succ c' else (w + 1) :: c' end.
Lemma ctr_pred_ok c : words c -> ctr_int c <> 0 -> words (ctr_pred c) /\ length (ctr_pred c) = length c /\ ctr_int (ctr_pred c) + 1 = ctr_int c.
Proof.
  unfold words, W32. induction 1 as [|w c Hw Hc IH]; intros Hn; [exfalso; apply Hn; reflexivity|]. cbn [ctr_pred].
  change (ctr_int (w :: c)) with (w + 2 ^ 32 * ctr_int c) in *. change (2 ^ 32) with M32 in *.
  destruct (N.eqb_spec w 0) as [->|Hw0].
  - destruct IH as (A & B & C); [lia|]. change (ctr_int ((M32 - 1) :: ctr_pred c)) with (M32 - 1 + M32 * ctr_int (ctr_pred c)). cbn [length]. rewrite B.
    split; [constructor; [reflexivity|exact A]|]. split; [reflexivity|]. lia.
  - change (ctr_int ((w - 1) :: c)) with (w - 1 + M32 * ctr_int c). split; [constructor; [lia|assumption]|]. split; [reflexivity|]. lia.
Qed.
Lemma ctr_succ_ok c : words c -> ctr_int c + 1 <> M32 ^ N.of_nat (length c) ->
  words (ctr_succ c) /\ length (ctr_succ c) = length c /\ ctr_int (ctr_succ c) = ctr_int c + 1.
Proof.
  unfold words, W32. induction 1 as [|w c Hw Hc IH]; intros Hn; [exfalso; apply Hn; reflexivity|]. cbn [ctr_succ].
  change (ctr_int (w :: c)) with (w + 2 ^ 32 * ctr_int c) in *. change (2 ^ 32) with M32 in *.
  cbn [length] in Hn. rewrite Nat2N.inj_succ, N.pow_succ_r' in Hn.
  destruct (N.eqb_spec w (M32 - 1)) as [->|Hw0].
  - destruct IH as (A & B & C); [revert Hn; generalize (M32 ^ N.of_nat (length c)); lia|].
    change (ctr_int (0 :: ctr_succ c)) with (0 + M32 * ctr_int (ctr_succ c)). cbn [length]. rewrite B.
    split; [constructor; [reflexivity|exact A]|]. split; [reflexivity|]. lia.
  - change (ctr_int ((w + 1) :: c)) with (w + 1 + M32 * ctr_int c). split; [constructor; [lia|assumption]|]. split; [reflexivity|]. lia.
Qed.

(** Every state has a twin: its carry bit moved into the counters, or out of them.  The
    exceptions are the counters 0 without carry and 2^256-1 with it. *)
Theorem C73_twin ck s : rwf s ->
  (r_carry s = 0 -> int256 (r_c s) <> 0) -> (r_carry s = 1 -> int256 (r_c s) <> 2 ^ 256 - 1) ->
  exists s', rwf s' /\ r_x s' = r_x s /\ r_carry s' = 1 - r_carry s /\ s' <> s
  /\ next_state ck s' = next_state ck s
  /\ forall k, rabbit_write ck (S k) s' = rabbit_write ck (S k) s.
Proof.
  change int256 with ctr_int. intros H H0 H1. pose proof H as (Hlx & Hx & Hlc & Hc & Hb).
  assert (Hcase : r_carry s = 0 \/ r_carry s = 1) by lia.
  assert (X : exists c', words c' /\ length c' = 8%nat /\ ctr_int c' + (1 - r_carry s) = ctr_int (r_c s) + r_carry s).
  { destruct Hcase as [E|E]; rewrite E.
    - destruct (ctr_pred_ok (r_c s) Hc (H0 E)) as (A & B & C). exists (ctr_pred (r_c s)). split; [exact A|]. split; [lia|]. lia.
    - destruct (ctr_succ_ok (r_c s) Hc) as (A & B & C).
      { rewrite Hlc. change (M32 ^ N.of_nat 8) with (2 ^ 256). specialize (H1 E). pose proof (ctr_int_lt _ Hc) as L. rewrite Hlc in L.
        change (M32 ^ N.of_nat 8) with (2 ^ 256) in L. lia. }
      exists (ctr_succ (r_c s)). split; [exact A|]. split; [lia|]. lia. }
  destruct X as (c' & Hw & Hl & E). exists {| r_x := r_x s; r_c := c'; r_carry := 1 - r_carry s |}.
  assert (Hwf : rwf {| r_x := r_x s; r_c := c'; r_carry := 1 - r_carry s |}).
  { unfold rwf. cbn [r_x r_c r_carry]. split; [exact Hlx|]. split; [exact Hx|]. split; [exact Hl|]. split; [exact Hw|]. lia. }
  assert (En : next_state ck {| r_x := r_x s; r_c := c'; r_carry := 1 - r_carry s |} = next_state ck s).
  { apply next_eq; [exact Hwf | exact H |]. unfold rb_next, to_spec. cbn [rb_x rb_c rb_b r_x r_c r_carry].
    destruct (counters_sum c' (1 - r_carry s) (r_c s) (r_carry s) Hl Hlc E) as [-> ->]. reflexivity. }
  split; [exact Hwf|]. split; [reflexivity|]. split; [reflexivity|]. split; [|split; [exact En | apply write_eq; exact En]].
  intros Es. apply (f_equal r_carry) in Es. cbn [r_carry] in Es. lia.
Qed.
Print Assumptions C73_twin.

(** [g] takes the same value at [u] and at [u * 2^16] for every 16-bit [u]: *)
Lemma g_shift u : u < 2 ^ 16 -> rb_g (u * 2 ^ 16) 0 = rb_g u 0.
Proof.
  intros H. unfold rb_g, WORD_SIZE. rewrite !N.add_0_r. change (2 ^ 16) with 65536 in *. change (2 ^ 32) with (65536 * 65536).
  rewrite (N.mod_small (u * 65536)), (N.mod_small u) by nia. cbv zeta.
  replace (u * 65536 * (u * 65536)) with (u * u * (65536 * 65536)) by lia.
  rewrite N.mod_mul, N.div_mul, (N.mod_small (u * u)), (N.div_small (u * u)) by (discriminate || nia).
  rewrite N.lxor_0_l, N.lxor_0_r. reflexivity.
Qed.
Lemma g_arg t v : t < M32 -> v < M32 -> rb_g ((t + M32 - v) mod M32) v = rb_g t 0.
Proof.
  intros Ht Hv. unfold rb_g. replace (((t + M32 - v) mod M32 + v) mod WORD_SIZE) with ((t + 0) mod WORD_SIZE); [reflexivity|].
  change WORD_SIZE with M32. lia.
Qed.
(** so in every lane, for any counters, two states differing only there merge. *)
Theorem C73_lane ck s j u : rwf s -> (j < 8)%nat -> 0 < u < 2 ^ 16 ->
  exists a b, a <> b
  /\ let s1 := {| r_x := upd (r_x s) j a; r_c := r_c s; r_carry := r_carry s |} in
     let s2 := {| r_x := upd (r_x s) j b; r_c := r_c s; r_carry := r_carry s |} in
     rwf s1 /\ rwf s2 /\ s1 <> s2 /\ next_state ck s1 = next_state ck s2.
Proof.
  intros H Hj Hu. pose proof H as (Hlx & Hx & Hlc & Hc & Hb).
  set (v := rb_counter (r_c s) (r_carry s) j). assert (Hv : v < M32) by (apply N.mod_lt; discriminate).
  set (at_ t := (t + M32 - v) mod M32). assert (Ha : forall t, at_ t < M32) by (intros t; apply N.mod_lt; discriminate).
  assert (Hu1 : u < M32) by (change (2 ^ 16) with 65536 in Hu; lia).
  assert (Hu2 : u * 2 ^ 16 < M32) by (change (2 ^ 16) with 65536 in *; lia).
  assert (Hne : at_ u <> at_ (u * 2 ^ 16)).
  { unfold at_. change (2 ^ 16) with 65536 in *. clearbody v. lia. }
  exists (at_ u), (at_ (u * 2 ^ 16)). split; [exact Hne|]. cbv zeta.
  assert (Hwf : forall t, rwf {| r_x := upd (r_x s) j (at_ t); r_c := r_c s; r_carry := r_carry s |}).
  { intros t. unfold rwf. cbn [r_x r_c r_carry]. rewrite upd_length. split; [exact Hlx|]. split; [apply Forall_upd; [exact Hx | apply Ha]|]. auto. }
  split; [apply Hwf|]. split; [apply Hwf|]. split.
  - intros E. apply (f_equal (fun s => get (r_x s) j)) in E. cbn [r_x] in E. rewrite !(get_upd_eq (r_x s)) in E by lia. contradiction.
  - apply next_eq; try apply Hwf. unfold rb_next, to_spec. cbn [rb_x rb_c rb_b r_x r_c r_carry].
    match goal with |- {| rb_x := rb_tab (rb_next_x (rb_tab ?f)); rb_c := _; rb_b := _ |} = {| rb_x := rb_tab (rb_next_x (rb_tab ?g)); rb_c := _; rb_b := _ |} =>
      replace (rb_tab f) with (rb_tab g); [reflexivity|] end.
    unfold rb_tab. apply map_ext_in. intros i Hi. apply in_seq in Hi. destruct (Nat.eq_dec i j) as [->|Hij].
    + unfold rb_nth. rewrite (Nat.mod_small j 8) by lia. fold (get (upd (r_x s) j (at_ u)) j) (get (upd (r_x s) j (at_ (u * 2 ^ 16))) j). rewrite !get_upd_eq by lia.
      rewrite (nth_indep _ 0 (rb_counter (r_c s) (r_carry s) 0)) by (rewrite map_length, seq_length; lia). rewrite map_nth, seq_nth by lia. cbn [Nat.add]. fold v.
      unfold at_. rewrite !g_arg by assumption. apply g_shift. apply Hu.
    + unfold rb_nth. rewrite (Nat.mod_small i 8) by lia. fold (get (upd (r_x s) j (at_ u)) i) (get (upd (r_x s) j (at_ (u * 2 ^ 16))) i). rewrite !get_upd_neq by lia. reflexivity.
Qed.
Print Assumptions C73_lane.

(** A map of a finite set into itself that identifies two elements misses one. *)
Lemma misses {A} (dec : forall x y : A, {x = y} + {x <> y}) (f : A -> A) (all : list A) : NoDup all ->
  (exists a b, In a all /\ In b all /\ a <> b /\ f a = f b) -> exists y, In y all /\ forall x, In x all -> f x <> y.
Proof.
  intros Hn (a & b & Ia & Ib & Hab & E).
  destruct (Exists_dec (fun y => ~ In y (map f all)) all) as [H|H].
  - intros y. destruct (in_dec dec y (map f all)); [right; tauto | left; assumption].
  - apply Exists_exists in H. destruct H as (y & Hy & Hm). exists y. split; [exact Hy|]. intros x Hx Ef. apply Hm. rewrite <- Ef. apply in_map. exact Hx.
  - exfalso. assert (I : incl all (map f all)).
    { intros y Hy. destruct (in_dec dec y (map f all)) as [I|I]; [exact I|]. exfalso. apply H. apply Exists_exists. exists y. auto. }
    assert (Hd : NoDup (map f all)) by (apply (NoDup_incl_NoDup Hn); [rewrite map_length; reflexivity | exact I]).
    clear - Hd Ia Ib Hab E. induction all as [|x all IH]; [exact Ia|]. cbn [map] in Hd. apply NoDup_cons_iff in Hd. destruct Hd as [N1 N2].
    destruct Ia as [->|Ia], Ib as [->|Ib]; [contradiction | | | exact (IH Ia Ib N2)].
    + apply N1. rewrite E. apply in_map. exact Ib.
    + apply N1. rewrite <- E. apply in_map. exact Ia.
Qed.
Lemma all_below (m : N) : exists l, NoDup l /\ forall x, In x l <-> x < m.
Proof.
  induction m as [|m (l & Hn & Hl)] using N.peano_ind.
  - exists []. split; [constructor|]. intros x. split; [intros [] | lia].
  - exists (m :: l). split.
    + constructor; [|exact Hn]. rewrite Hl. lia.
    + intros x. cbn [In]. rewrite Hl. lia.
Qed.
Lemma NoDup_app_intro {A} (a b : list A) : NoDup a -> NoDup b -> (forall x, In x a -> In x b -> False) -> NoDup (a ++ b).
Proof.
  intros Ha Hb. induction Ha as [|x a Hn Ha IH]; intros H; cbn [app]; [exact Hb|]. constructor.
  - intros I. apply in_app_or in I. destruct I as [I|I]; [contradiction|]. apply (H x); [left; reflexivity | exact I].
  - apply IH. intros y Hy Hy'. apply (H y); [right; exact Hy | exact Hy'].
Qed.
Lemma NoDup_pairs {A B} (la : list A) (lb : list B) : NoDup la -> NoDup lb -> NoDup (list_prod la lb).
Proof.
  intros Ha Hb. induction Ha as [|a la Hn Ha IH]; cbn [list_prod]; [constructor|]. apply NoDup_app_intro.
  - apply FinFun.Injective_map_NoDup; [intros x y E; congruence | exact Hb].
  - exact IH.
  - intros [x y] H1 H2. apply in_map_iff in H1. destruct H1 as (z & Ez & _). apply in_prod_iff in H2. apply Hn. replace a with x by congruence. apply H2.
Qed.
Lemma all_lists (m : N) (n : nat) : exists l, NoDup l /\ forall x, In x l <-> (length x = n /\ Forall (fun w => w < m) x).
Proof.
  destruct (all_below m) as (b & Nb & Hb). induction n as [|n (l & Nl & Hl)].
  - exists [[]]. split; [repeat constructor; intros []|]. intros x. split.
    + intros [<-|[]]. split; constructor.
    + intros [H _]. destruct x; [left; reflexivity | discriminate H].
  - exists (map (fun p => fst p :: snd p) (list_prod b l)). split.
    + apply FinFun.Injective_map_NoDup; [|apply NoDup_pairs; assumption]. intros [p q] [p' q']. cbn [fst snd]. congruence.
    + intros x. rewrite in_map_iff. split.
      * intros ([w y] & <- & H). apply in_prod_iff in H. rewrite Hb, Hl in H. destruct H as (H1 & H2 & H3). cbn [fst snd length]. split; [lia|].
        constructor; assumption.
      * intros [H1 H2]. destruct x as [|w y]; [discriminate H1|]. exists (w, y). split; [reflexivity|]. apply in_prod_iff. rewrite Hb, Hl.
        inversion H2; subst. split; [assumption|]. split; [cbn in H1; congruence | assumption].
Qed.
Lemma all_states : exists l, NoDup l /\ forall s, In s l <-> rwf s.
Proof.
  destruct (all_lists M32 8) as (l & Nl & Hl). destruct (all_below 2) as (b & Nb & Hb).
  exists (map (fun p => {| r_x := fst (fst p); r_c := snd (fst p); r_carry := snd p |}) (list_prod (list_prod l l) b)). split.
  - apply FinFun.Injective_map_NoDup; [|apply NoDup_pairs; [apply NoDup_pairs|]; assumption]. intros [[p q] r] [[p' q'] r']. cbn [fst snd]. congruence.
  - intros [x c k]. rewrite in_map_iff. unfold rwf. cbn [r_x r_c r_carry]. split.
    + intros ([[x' c'] k'] & E & H). cbn [fst snd] in E. apply in_prod_iff in H. destruct H as [H H3]. apply in_prod_iff in H. destruct H as [H1 H2].
      rewrite Hl in H1, H2. rewrite Hb in H3. assert (x' = x /\ c' = c /\ k' = k) as (-> & -> & ->) by (split; [congruence | split; congruence]).
      unfold words, W32. split; [apply H1|]. split; [apply H1|]. split; [apply H2|]. split; [apply H2|]. lia.
    + intros (H1 & H2 & H3 & H4 & H5). exists (x, c, k). split; [reflexivity|]. apply in_prod_iff. split; [apply in_prod_iff; split|].
      * apply Hl. split; [exact H1 | exact H2].
      * apply Hl. split; [exact H3 | exact H4].
      * apply Hb. lia.
Qed.
Lemma rstate_dec (a b : rstate) : {a = b} + {a <> b}.
Proof. decide equality; try apply (list_eq_dec N.eq_dec). apply N.eq_dec. Qed.
(** Some states can only be starting points: no state steps to them. *)
Theorem C73_no_past : exists s, rwf s /\ forall ck s0, rwf s0 -> next_state ck s0 <> Ok s.
Proof.
  destruct all_states as (all & Hn & Hall). set (z := {| r_x := repeat 0 8; r_c := repeat 1 8; r_carry := 0 |}).
  assert (Hz : rwf z) by (unfold rwf, words, W32; repeat split; try reflexivity; try (repeat constructor); discriminate).
  set (step s := match next_state false s with Ok s' => s' | Panic => s end).
  destruct (misses rstate_dec step all Hn) as (y & Iy & Hy).
  - destruct (C73_twin false z Hz) as (z' & Hw & _ & _ & Hne & E & _); [intros _; discriminate | discriminate|].
    exists z, z'. rewrite !Hall. split; [exact Hz|]. split; [exact Hw|]. split; [congruence|]. unfold step. rewrite E. reflexivity.
  - exists y. split; [apply Hall; exact Iy|]. intros ck s0 H0 E.
    assert (E0 : next_state false s0 = next_state ck s0).
    { destruct (next_state_ok ck s0 H0) as (a & Ea & _ & Sa). destruct (next_state_ok false s0 H0) as (b & Eb & _ & Sb).
      rewrite Ea, Eb. f_equal. rewrite <- Sa in Sb. unfold to_spec in Sb. destruct a as [ax ac ab], b as [bx bc bb]. cbn [r_x r_c r_carry] in Sb. congruence. }
    apply (Hy s0); [apply Hall; exact H0|]. unfold step. rewrite E0, E. reflexivity.
Qed.
Print Assumptions C73_no_past.
Example C73_satisfiable : match rabbit_new true ex_rkey ex_riv with
  | Ok s => (r_carry s, length (r_c s)) = (1, 8%nat) /\ int256 (r_c s) <> 2 ^ 256 - 1
            /\ next_state true {| r_x := r_x s; r_c := ctr_succ (r_c s); r_carry := 0 |} = next_state true s
  | Panic => False
  end.
Proof. vm_compute. split; [reflexivity|]. split; [discriminate|reflexivity]. Qed.
