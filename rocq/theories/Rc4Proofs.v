(** RC4: the model refines the specification; permutation invariant; invertibility. *)
From Verif Require Import Word WordLemmas Res SpecRC4 Rc4 SpecStream RabbitProofs.
From Coq Require Import ZArith Lia ZifyBool ZifyNat ZifyN Permutation FinFun.
Ltac Zify.zify_post_hook ::= Z.div_mod_to_equations.

Definition id256 : list N := map N.of_nat (seq 0 256).
(** A permutation of 0..255 as a table. *)
Definition perm (l : list N) : Prop := Permutation l id256.
Definition at_ (l : list N) (x : N) : N := nth (N.to_nat x) l 0.

Lemma perm_length l : perm l -> length l = 256%nat.
Proof. intros H. apply Permutation_length in H. exact H. Qed.
Lemma perm_lt l : perm l -> Forall (fun b => b < 256) l.
Proof.
  intros H. apply Forall_forall. intros x Hx. apply (Permutation_in x H) in Hx.
  apply in_map_iff in Hx as [i [<- Hi]]. apply in_seq in Hi. lia.
Qed.
Lemma at_lt l x : perm l -> at_ l x < 256.
Proof.
  intros H. unfold at_. destruct (Nat.lt_ge_cases (N.to_nat x) (length l)) as [Hx|Hx].
  - apply (proj1 (Forall_forall _ _) (perm_lt l H)), nth_In. assumption.
  - rewrite nth_overflow by assumption. lia.
Qed.
Lemma id256_NoDup : NoDup id256.
Proof. apply Injective_map_NoDup; [intros a b H; lia | apply seq_NoDup]. Qed.
Lemma perm_NoDup l : perm l -> NoDup l.
Proof. intros H. apply (Permutation_NoDup (Permutation_sym H)), id256_NoDup. Qed.
Lemma at_inj l x y : perm l -> x < 256 -> y < 256 -> at_ l x = at_ l y -> x = y.
Proof.
  intros H Hx Hy E. pose proof (perm_length l H) as Hl.
  assert (N.to_nat x = N.to_nat y); [|lia].
  apply (proj1 (NoDup_nth l 0) (perm_NoDup l H)); [lia | lia | exact E].
Qed.

(** ** Swapping *)
Definition swap_list (l : list N) (a b : N) : list N :=
  upd (upd l (N.to_nat a) (at_ l b)) (N.to_nat b) (at_ l a).
Lemma swap_ok l a b : length l = 256%nat -> a < 256 -> b < 256 -> swap l a b = Ok (swap_list l a b).
Proof.
  intros Hl Ha Hb. unfold swap. rewrite !idx_ok by lia. cbn [bind]. rewrite set_idx_ok by lia. cbn [bind].
  rewrite set_idx_ok by (rewrite upd_length; lia). reflexivity.
Qed.
Lemma swap_list_length l a b : length (swap_list l a b) = length l.
Proof. unfold swap_list. rewrite !upd_length. reflexivity. Qed.
Lemma at_swap l a b x : length l = 256%nat -> a < 256 -> b < 256 -> x < 256 ->
  at_ (swap_list l a b) x = rc_swap (at_ l) a b x.
Proof.
  intros Hl Ha Hb Hx. unfold swap_list, rc_swap. unfold at_ at 1. fold (get (upd (upd l (N.to_nat a) (at_ l b)) (N.to_nat b) (at_ l a)) (N.to_nat x)).
  destruct (N.eqb_spec x a) as [->|Hxa].
  - destruct (N.eq_dec a b) as [->|Hab].
    + rewrite get_upd_eq by (rewrite upd_length; lia). reflexivity.
    + rewrite get_upd_neq by lia. rewrite get_upd_eq by lia. reflexivity.
  - destruct (N.eqb_spec x b) as [->|Hxb].
    + rewrite get_upd_eq by (rewrite upd_length; lia). reflexivity.
    + rewrite !get_upd_neq by lia. reflexivity.
Qed.
Lemma swap_perm l a b : length l = 256%nat -> a < 256 -> b < 256 -> Permutation (swap_list l a b) l.
Proof.
  intros Hl Ha Hb. apply Permutation_sym. apply (Permutation_nth l (swap_list l a b) 0). split.
  - apply swap_list_length.
  - exists (fun k => if (k =? N.to_nat a)%nat then N.to_nat b else if (k =? N.to_nat b)%nat then N.to_nat a else k).
    split; [|split].
    + intros k Hk. cbv beta. destruct (Nat.eqb_spec k (N.to_nat a)); [lia|]. destruct (Nat.eqb_spec k (N.to_nat b)); lia.
    + intros k k' Hk Hk'. cbv beta.
      repeat match goal with |- context [(?p =? ?q)%nat] => destruct (Nat.eqb_spec p q) end; lia.
    + intros k Hk. pose proof (at_swap l a b (N.of_nat k) Hl Ha Hb ltac:(lia)) as E. unfold at_ at 1 in E.
      rewrite Nat2N.id in E. rewrite E. unfold rc_swap, at_. 
      destruct (N.eqb_spec (N.of_nat k) a), (Nat.eqb_spec k (N.to_nat a)); try lia.
      destruct (N.eqb_spec (N.of_nat k) b), (Nat.eqb_spec k (N.to_nat b)); try lia.
      rewrite Nat2N.id. reflexivity.
Qed.
Lemma swap_is_perm l a b : perm l -> a < 256 -> b < 256 -> perm (swap_list l a b).
Proof.
  intros H Ha Hb. unfold perm. rewrite (swap_perm l a b (perm_length l H) Ha Hb). exact H.
Qed.

(** ** Invariant and refinement *)
Definition kwf (s : rc4) : Prop := perm (k_state s) /\ k_i s < 256 /\ k_j s < 256.
Definition krep (s : rc4) (a : (N -> N) * N * N) : Prop :=
  let '(P, i, j) := a in k_i s = i /\ k_j s = j /\ forall x, x < 256 -> at_ (k_state s) x = P x.

(** The state after one step, and the byte returned. *)
Definition prga_state (s : rc4) : rc4 :=
  let i := add8 (k_i s) 1 in let j := add8 (k_j s) (at_ (k_state s) i) in
  {| k_state := swap_list (k_state s) i j; k_i := i; k_j := j |}.
Definition prga_out (s : rc4) : N :=
  at_ (k_state s) (add8 (at_ (k_state s) (k_i s)) (at_ (k_state s) (k_j s))).
Lemma add8_lt a b : add8 a b < 256.
Proof. apply N.mod_lt. discriminate. Qed.
Lemma prga_wf s : kwf s -> kwf (prga_state s).
Proof.
  intros (Hp & Hi & Hj). unfold prga_state. unfold kwf. cbn [k_state k_i k_j].
  split; [apply swap_is_perm; try apply add8_lt; assumption|]. split; apply add8_lt.
Qed.
Lemma prga_ok s : kwf s -> prga s = Ok (prga_out (prga_state s), prga_state s).
Proof.
  intros H. pose proof (prga_wf s H) as (Hp' & _ & _). destruct H as (Hp & Hi & Hj). unfold prga, s_i, s_j. cbn [k_state k_i k_j].
  pose proof (perm_length _ Hp) as Hl. pose proof (perm_length _ Hp') as Hl'. 
  rewrite idx_ok by (rewrite Hl; apply add8_lt). cbn [bind].
  fold (at_ (k_state s) (add8 (k_i s) 1)).
  rewrite swap_ok by (try apply add8_lt; assumption). cbn [bind].
  change (swap_list (k_state s) (add8 (k_i s) 1) (add8 (k_j s) (at_ (k_state s) (add8 (k_i s) 1)))) with (k_state (prga_state s)).
  rewrite !idx_ok by (rewrite Hl'; apply add8_lt). cbn [bind]. rewrite idx_ok by (rewrite Hl'; apply add8_lt). reflexivity.
Qed.
Lemma prga_rep s a : kwf s -> krep s a -> krep (prga_state s) (rc_step a).
Proof.
  destruct a as [[P i] j]. intros (Hp & _ & _) (Ei & Ej & ES). unfold rc_step, prga_state, krep. cbn [k_state k_i k_j].
  assert (E1 : add8 (k_i s) 1 = (i + 1) mod 256) by (rewrite Ei; reflexivity).
  assert (E2 : add8 (k_j s) (at_ (k_state s) (add8 (k_i s) 1)) = (j + P ((i + 1) mod 256)) mod 256).
  { rewrite E1, ES by (apply N.mod_lt; discriminate). rewrite Ej. reflexivity. }
  split; [exact E1|]. split; [exact E2|]. intros x Hx. rewrite E2, E1.
  rewrite at_swap by (try apply perm_length; try assumption; apply N.mod_lt; discriminate).
  unfold rc_swap. destruct (x =? _); [apply ES, N.mod_lt; discriminate|]. destruct (x =? _); apply ES; try assumption.
  apply N.mod_lt. discriminate.
Qed.
Lemma out_rep s a : kwf s -> krep s a -> prga_out s = rc_out a.
Proof.
  destruct a as [[P i] j]. intros (Hp & Hi & Hj) (Ei & Ej & ES). unfold prga_out, rc_out.
  rewrite <- (ES i), <- (ES j) by congruence. rewrite <- (ES ((_ + _) mod 256)) by (apply N.mod_lt; discriminate).
  rewrite Ei, Ej. reflexivity.
Qed.

(** ** Key schedule *)
Lemma ksa_step_ok key i l j : perm l -> (i < 256)%nat -> (0 < length key)%nat ->
  let j' := add8 (add8 j (at_ l (N.of_nat i))) (nth (i mod length key)%nat key 0) in
  ksa_step key i (l, j) = Ok (swap_list l (N.of_nat i) j', j').
Proof.
  intros Hp Hi Hk j'. unfold ksa_step. pose proof (perm_length l Hp) as Hl.
  rewrite idx_ok by lia. cbn [bind].
  rewrite idx_ok by (pose proof (Nat.mod_upper_bound i (length key) ltac:(lia)); lia). cbn [bind].
  fold (at_ l (N.of_nat i)). rewrite (Nat2N.id (i mod length key)). fold j'.
  rewrite swap_ok by (try assumption; try apply add8_lt; lia). reflexivity.
Qed.
Lemma id256_at x : x < 256 -> at_ id256 x = x.
Proof.
  intros H. unfold at_, id256. change 0 with (N.of_nat 0). rewrite map_nth, seq_nth by lia. lia.
Qed.
Lemma ksa_ok key n : (0 < length key)%nat -> (n <= 256)%nat ->
  exists l j, for_ (seq 0 n) (ksa_step key) (id256, 0) = Ok (l, j) /\ perm l
  /\ j = snd (rc_ksa key n) /\ forall x, x < 256 -> at_ l x = fst (rc_ksa key n) x.
Proof.
  intros Hk. induction n as [|n IH]; intros Hn.
  - exists id256, 0. split; [reflexivity|]. split; [apply Permutation_refl|]. split; [reflexivity|]. apply id256_at.
  - destruct (IH ltac:(lia)) as (l & j & E & Hp & Ej & ES). rewrite seq_S, for_app, E. cbn [bind for_ Nat.add].
    rewrite ksa_step_ok by (try assumption; lia). cbn [bind for_].
    set (j' := add8 _ _). exists (swap_list l (N.of_nat n) j'), j'. split; [reflexivity|].
    split; [apply swap_is_perm; try assumption; try lia; apply add8_lt|].
    cbn [rc_ksa]. destruct (rc_ksa key n) as [P jn] eqn:Er. cbn [fst snd] in *.
    assert (Ej' : j' = (jn + P (N.of_nat n) + nth (n mod length key)%nat key 0) mod 256).
    { unfold j', add8. rewrite Ej, ES by lia. apply N.add_mod_idemp_l. discriminate. }
    split; [exact Ej'|]. rewrite <- Ej'. intros x Hx.
    rewrite at_swap by (try apply perm_length; try assumption; try lia; apply add8_lt).
    unfold rc_swap. assert (j' < 256) by apply add8_lt.
    destruct (x =? _); [apply ES; assumption|]. destruct (x =? _); apply ES; lia.
Qed.
Lemma len_check (key : list N) : ((length key <? 1) || (256 <? length key))%nat = false <-> (1 <= length key <= 256)%nat.
Proof. lia. Qed.
Lemma new_ok key : (1 <= length key <= 256)%nat ->
  exists s, new_from_slice key = Ok (Some s) /\ kwf s /\ krep s (rc_init key).
Proof.
  intros Hk. unfold new_from_slice. rewrite (proj2 (len_check key) Hk).
  replace (assert_ (forallb (fun i => N.of_nat i <? 256) (seq 0 256))) with (Ok tt) by reflexivity. cbn [bind].
  destruct (ksa_ok key 256 ltac:(lia) (le_n _)) as (l & j & E & Hp & Ej & ES).
  fold id256. rewrite E. cbn [bind]. eexists. split; [reflexivity|]. split.
  - unfold kwf. cbn [k_state k_i k_j]. split; [assumption|]. lia.
  - unfold krep, rc_init. cbn [k_state k_i k_j]. auto.
Qed.
Lemma new_err key : (length key = 0 \/ 256 < length key)%nat -> new_from_slice key = Ok None.
Proof.
  intros H. unfold new_from_slice. destruct ((length key <? 1) || (256 <? length key))%nat eqn:E; [reflexivity|].
  apply len_check in E. lia.
Qed.

(** ** Streams *)
(** State after [n] bytes. *)
Definition prga_iter (n : nat) (s : rc4) : rc4 := Nat.iter n prga_state s.
Lemma prga_iter_wf n s : kwf s -> kwf (prga_iter n s).
Proof. intros H. induction n as [|n IH]; [assumption|]. apply prga_wf, IH. Qed.
Lemma prga_iter_rep n s a : kwf s -> krep s a -> krep (prga_iter n s) (Nat.iter n rc_step a).
Proof.
  intros H Hr. induction n as [|n IH]; [assumption|]. apply prga_rep; [apply prga_iter_wf; assumption | assumption].
Qed.
(** Byte [n] from state [s]. *)
Definition sbyte (s : rc4) (n : nat) : N := prga_out (prga_iter (S n) s).
Lemma sbyte_shift s n : sbyte (prga_state s) n = sbyte s (S n).
Proof. unfold sbyte, prga_iter. rewrite <- iter_S_r. reflexivity. Qed.
Lemma rc4_write_ok n : forall s, kwf s -> rc4_write s n = Ok (map (sbyte s) (seq 0 n), prga_iter n s).
Proof.
  induction n as [|n IH]; intros s H; cbn [rc4_write].
  - reflexivity.
  - rewrite prga_ok by assumption. cbn [bind]. rewrite IH by (apply prga_wf; assumption). cbn [bind].
    unfold prga_iter. rewrite iter_S_r. do 2 f_equal. cbn [seq map]. f_equal.
    rewrite <- seq_shift, map_map. apply map_ext. intros i. apply sbyte_shift.
Qed.
Lemma rc4_apply_ok d : forall s, kwf s ->
  rc4_apply s d = Ok (xorb_list d (map (sbyte s) (seq 0 (length d))), prga_iter (length d) s).
Proof.
  induction d as [|b d IH]; intros s H; cbn [rc4_apply].
  - reflexivity.
  - rewrite prga_ok by assumption. cbn [bind]. rewrite IH by (apply prga_wf; assumption). cbn [bind length].
    unfold prga_iter. rewrite iter_S_r. do 2 f_equal. cbn [seq map xorb_list]. f_equal; [apply N.lxor_comm|].
    rewrite <- seq_shift, map_map. f_equal. apply map_ext. intros i. apply sbyte_shift.
Qed.
Lemma sbyte_spec s key n : kwf s -> krep s (rc_init key) -> sbyte s n = rc_byte key n.
Proof. intros H Hr. apply out_rep; [apply prga_iter_wf; assumption | apply (prga_iter_rep (S n)); assumption]. Qed.

(** ** Invertibility and Finney states *)
Definition sub8 (a b : N) : N := (a + 256 - b) mod 256.
Definition prga_back (s : rc4) : rc4 :=
  let st := swap_list (k_state s) (k_i s) (k_j s) in
  {| k_state := st; k_i := sub8 (k_i s) 1; k_j := sub8 (k_j s) (at_ st (k_i s)) |}.
Lemma list_ext256 l l' : length l = 256%nat -> length l' = 256%nat ->
  (forall x, x < 256 -> at_ l x = at_ l' x) -> l = l'.
Proof.
  intros Hl Hl' H. apply (nth_ext l l' 0 0); [congruence|]. intros n Hn.
  specialize (H (N.of_nat n) ltac:(lia)). unfold at_ in H. rewrite Nat2N.id in H. exact H.
Qed.
Lemma swap_invol l a b : length l = 256%nat -> a < 256 -> b < 256 -> swap_list (swap_list l a b) a b = l.
Proof.
  intros Hl Ha Hb. apply list_ext256; [rewrite !swap_list_length; assumption | assumption |].
  intros x Hx. rewrite at_swap by (try rewrite swap_list_length; assumption).
  unfold rc_swap. rewrite !at_swap by assumption. unfold rc_swap. rewrite !N.eqb_refl.
  destruct (N.eqb_spec x a) as [->|]; [destruct (N.eqb_spec b a) as [->|]; reflexivity|].
  destruct (N.eqb_spec x b) as [->|]; [reflexivity|].
  reflexivity.
Qed.
Lemma back_forth s : kwf s -> prga_back (prga_state s) = s.
Proof.
  intros (Hp & Hi & Hj). unfold prga_back, prga_state. cbn [k_state k_i k_j].
  rewrite swap_invol by (try apply perm_length; try apply add8_lt; assumption).
  pose proof (at_lt (k_state s) (add8 (k_i s) 1) Hp) as Hs.
  destruct s as [st i j]. cbn [k_state k_i k_j] in *.
  assert (E1 : sub8 (add8 i 1) 1 = i) by (unfold sub8, add8; lia).
  assert (E2 : sub8 (add8 j (at_ st (add8 i 1))) (at_ st (add8 i 1)) = j) by (unfold sub8, add8 in *; lia).
  rewrite E1, E2. reflexivity.
Qed.
Lemma sub8_lt a b : sub8 a b < 256.
Proof. apply N.mod_lt. discriminate. Qed.
Lemma back_wf s : kwf s -> kwf (prga_back s).
Proof.
  intros (Hp & Hi & Hj). unfold prga_back, kwf. cbn [k_state k_i k_j].
  split; [apply swap_is_perm; assumption|]. split; apply sub8_lt.
Qed.
Lemma forth_back s : kwf s -> prga_state (prga_back s) = s.
Proof.
  intros (Hp & Hi & Hj). unfold prga_back, prga_state. cbn [k_state k_i k_j].
  pose proof (at_lt _ (k_i s) (swap_is_perm _ _ _ Hp Hi Hj)) as Hs.
  destruct s as [st i j]. cbn [k_state k_i k_j] in *. set (st' := swap_list st i j) in *.
  assert (E1 : add8 (sub8 i 1) 1 = i) by (unfold sub8, add8; lia). rewrite E1.
  assert (E2 : add8 (sub8 j (at_ st' i)) (at_ st' i) = j) by (unfold sub8, add8; lia). rewrite E2.
  unfold st'. rewrite swap_invol by (try apply perm_length; assumption). reflexivity.
Qed.
(** Finney's forbidden states. *)
Definition finney (s : rc4) : Prop := k_j s = add8 (k_i s) 1 /\ at_ (k_state s) (k_j s) = 1.
Lemma finney_back s : kwf s -> finney (prga_state s) -> finney s.
Proof.
  intros (Hp & Hi & Hj). unfold finney, prga_state. cbn [k_state k_i k_j].
  set (i := add8 (k_i s) 1). set (v := at_ (k_state s) i). intros [Ej Es].
  assert (Hi' : i < 256) by apply add8_lt.
  rewrite at_swap in Es by (try apply perm_length; try apply add8_lt; assumption).
  unfold rc_swap in Es. rewrite N.eqb_refl in Es.
  assert (Ev : v = 1).
  { destruct (N.eqb_spec (add8 (k_j s) v) i) as [E|E]; [|exact Es]. unfold v. rewrite <- E. exact Es. }
  rewrite Ev in Ej. assert (Eij : k_j s = i) by (unfold add8 in *; lia).
  split; [exact Eij|]. rewrite Eij. exact Ev.
Qed.
Lemma not_finney n s : kwf s -> ~ finney s -> ~ finney (prga_iter n s).
Proof.
  intros H Hf. induction n as [|n IH]; [assumption|]. intros F. apply IH. apply finney_back; [apply prga_iter_wf; assumption | exact F].
Qed.

(** ** Histories of calls: a position in the keystream of [s0] *)
Definition sks (s0 : rc4) (p : N) : N := sbyte s0 (N.to_nat p).
Lemma prga_iter_add a b s : prga_iter a (prga_iter b s) = prga_iter (b + a) s.
Proof. unfold prga_iter. rewrite (Nat.add_comm b a). induction a as [|a IH]; [reflexivity|]. cbn [Nat.iter Nat.add]. simpl. rewrite <- IH. reflexivity. Qed.
Lemma sbyte_iter s0 p n : sbyte (prga_iter p s0) n = sbyte s0 (p + n).
Proof. unfold sbyte. rewrite prga_iter_add. rewrite Nat.add_succ_r. reflexivity. Qed.
Lemma sks_range s0 P n : map (sbyte (prga_iter (N.to_nat P) s0)) (seq 0 n) = ks_range (sks s0) P n.
Proof.
  unfold ks_range. apply map_ext. intros i. rewrite sbyte_iter. unfold sks. f_equal. lia.
Qed.
Lemma xorb_combine d k : xorb_list d k = map (fun x => N.lxor (fst x) (snd x)) (combine d k).
Proof. revert k. induction d as [|b d IH]; intros [|c k]; cbn [xorb_list combine map]; try reflexivity. rewrite IH. reflexivity. Qed.
Lemma rc4_step_ok s0 P o : kwf s0 ->
  exists r P', step_spec (sks s0) None false P o = Some (r, P')
  /\ rc4_step (prga_iter (N.to_nat P) s0) o = Ok (r, prga_iter (N.to_nat P') s0).
Proof.
  intros H. pose proof (prga_iter_wf (N.to_nat P) s0 H) as H'.
  assert (Eit : forall n, prga_iter n (prga_iter (N.to_nat P) s0) = prga_iter (N.to_nat (P + N.of_nat n)) s0).
  { intros n. rewrite prga_iter_add. f_equal. lia. }
  assert (Ex : forall d, xorb_list d (map (sbyte (prga_iter (N.to_nat P) s0)) (seq 0 (length d))) = ks_xor (sks s0) P d).
  { intros d. rewrite sks_range, xorb_combine. reflexivity. }
  destruct o as [d|d m|n|q|t]; cbn [step_spec rc4_step rc4_check_remaining]; cbv zeta; cbn match.
  - rewrite rc4_apply_ok by assumption. cbn [bind]. rewrite Ex, Eit. eauto.
  - destruct (length d =? m)%nat; [|eauto]. rewrite rc4_apply_ok by assumption. cbn [bind]. rewrite Ex, Eit. eauto.
  - rewrite rc4_write_ok by assumption. cbn [bind]. rewrite sks_range, Eit. eauto.
  - eauto.
  - eauto.
Qed.
Lemma rc4_run_ok s0 h : kwf s0 -> forall P,
  exists rs P', run_spec (sks s0) None false P h = Some (rs, P')
  /\ rc4_run (prga_iter (N.to_nat P) s0) h = Ok (rs, prga_iter (N.to_nat P') s0).
Proof.
  intros H. induction h as [|o h IH]; intros P; cbn [run_spec rc4_run].
  - eauto.
  - destruct (rc4_step_ok s0 P o H) as (r & P1 & E1 & E2). rewrite E1, E2. cbn [bind].
    destruct (IH P1) as (rs & P2 & E3 & E4). rewrite E3, E4. cbn [bind]. eauto.
Qed.
(** The answers depend on the keystream only through its values. *)
Lemma ks_range_ext ks1 ks2 P n : (forall p, ks1 p = ks2 p) -> ks_range ks1 P n = ks_range ks2 P n.
Proof. intros E. apply map_ext. intros i. apply E. Qed.
Lemma step_spec_ext ks1 ks2 lim strict P o : (forall p, ks1 p = ks2 p) ->
  step_spec ks1 lim strict P o = step_spec ks2 lim strict P o.
Proof.
  intros E. destruct o; cbn [step_spec]; unfold ks_xor; rewrite ?(ks_range_ext ks1 ks2) by exact E; reflexivity.
Qed.
Lemma run_spec_ext ks1 ks2 lim strict h : (forall p, ks1 p = ks2 p) -> forall P,
  run_spec ks1 lim strict P h = run_spec ks2 lim strict P h.
Proof.
  intros E. induction h as [|o h IH]; intros P; cbn [run_spec]; [reflexivity|].
  rewrite (step_spec_ext ks1 ks2) by exact E. destruct (step_spec ks2 lim strict P o) as [[r P']|]; [|reflexivity].
  rewrite IH. reflexivity.
Qed.
