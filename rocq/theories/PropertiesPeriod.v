(** C65: no cipher forgets: RC4 and HC-256 come back to their initial state, ChaCha and
    Salsa after exactly as many blocks as their counter has values. *)
From Verif Require Import Word WordLemmas Res PropCommon SpecStream SpecRC4 SpecHC256 ChaChaCore ChaChaProofs ChaChaDispatch ChaChaDispatchProofs Ciphers CiphersProofs
  Salsa SalsaProofs Hc256 Hc256Proofs Rc4 Rc4Proofs PropertiesRc4 PropertiesHc256 PropertiesHc256Inj PropertiesChaCha PropertiesSalsa.
From Coq Require Import ZArith Lia ZifyBool ZifyNat ZifyN Permutation.
Ltac Zify.zify_post_hook ::= Z.div_mod_to_equations.

(** ** Orbits of an injective map on a finite set *)
Section Orbit.
  Variable A : Type.
  Variable eq_dec : forall a b : A, {a = b} + {a <> b}.
  Variable f : A -> A.
  Variable P : A -> Prop.
  Hypothesis P_step : forall a, P a -> P (f a).
  Hypothesis f_inj : forall a b, P a -> P b -> f a = f b -> a = b.
  Variable all : list A.
  Hypothesis all_in : forall a, P a -> In a all.

  Lemma P_iter n a : P a -> P (Nat.iter n f a).
  Proof using P_step. intros H. induction n as [|n IH]; [exact H|]. apply P_step, IH. Qed.
  Lemma cancel i d a : P a -> Nat.iter (i + d) f a = Nat.iter i f a -> Nat.iter d f a = a.
  Proof using P_step f_inj.
    intros H. induction i as [|i IH]; [auto|]. intros E. apply IH. cbn [Nat.add Nat.iter] in E.
    apply f_inj in E; [exact E|apply P_iter, H|apply P_iter, H].
  Qed.
  Lemma repeats (g : nat -> A) n : {i : nat & {d : nat | (0 < d)%nat /\ (i + d < n)%nat /\ g (i + d)%nat = g i}} + {NoDup (map g (seq 0 n))}.
  Proof using eq_dec.
    induction n as [|n IH]; [right; constructor|]. destruct IH as [(i & d & H1 & H2 & H3) | N].
    - left. exists i, d. split; [exact H1|]. split; [lia|exact H3].
    - destruct (in_dec eq_dec (g n) (map g (seq 0 n))) as [I|I].
      + left. assert (K : forall m, (m <= n)%nat -> In (g n) (map g (seq 0 m)) -> {i | (i < m)%nat /\ g i = g n}).
        { clear I N. induction m as [|m IHm]; intros Hm I; [destruct I|].
          destruct (eq_dec (g m) (g n)) as [E|E]; [exists m; split; [lia|exact E]|].
          rewrite seq_S, map_app in I. cbn [map Nat.add] in I.
          assert (I' : In (g n) (map g (seq 0 m))).
          { apply in_app_or in I as [I|[I|[]]]; [exact I|contradiction]. }
          destruct (IHm ltac:(lia) I') as (i & Hi & Ei). exists i. split; [lia|exact Ei]. }
        destruct (K n (Nat.le_refl n) I) as (i & Hi & Ei). exists i, (n - i)%nat.
        split; [lia|]. replace (i + (n - i))%nat with n by lia. split; [lia|congruence].
      + right. rewrite seq_S, map_app. cbn [map Nat.add]. apply (Permutation_NoDup (l := g n :: map g (seq 0 n))).
        * apply Permutation_cons_append.
        * constructor; assumption.
  Qed.
  Lemma orbit a : P a -> exists d, (0 < d)%nat /\ (d <= length all)%nat /\ Nat.iter d f a = a.
  Proof using eq_dec P_step f_inj all_in.
    intros H. destruct (repeats (fun i => Nat.iter i f a) (S (length all))) as [(i & d & H1 & H2 & H3) | N].
    - exists d. split; [exact H1|]. split; [lia|]. apply (cancel i d a H H3).
    - exfalso. assert (I : incl (map (fun i => Nat.iter i f a) (seq 0 (S (length all)))) all).
      { intros x Hx. apply in_map_iff in Hx as (i & <- & _). apply all_in, P_iter, H. }
      apply (NoDup_incl_length N) in I. rewrite map_length, seq_length in I. lia.
  Qed.
End Orbit.

(** ** All lists of [n] numbers below [m] *)
Definition below (m : N) : list N := map N.of_nat (seq 0 (N.to_nat m)).
Lemma in_below m x : x < m -> In x (below m).
Proof. intros H. apply in_map_iff. exists (N.to_nat x). split; [apply N2Nat.id|]. apply in_seq. lia. Qed.
Lemma below_length m : length (below m) = N.to_nat m.
Proof. unfold below. rewrite map_length. apply seq_length. Qed.
Fixpoint lists (m : N) (n : nat) : list (list N) :=
  match n with O => [[]] | S n' => flat_map (fun l => map (fun x => x :: l) (below m)) (lists m n') end.
Lemma in_lists m n : forall l, length l = n -> Forall (fun x => x < m) l -> In l (lists m n).
Proof.
  induction n as [|n IH]; intros [|x l] L F; try discriminate L; [left; reflexivity|].
  apply Forall_inv in F as Fx. apply Forall_inv_tail in F. cbn [lists]. apply in_flat_map. exists l.
  split; [apply IH; [cbn in L; lia|exact F]|]. apply (in_map (fun x => x :: l)), in_below, Fx.
Qed.
Lemma lists_length m n : N.of_nat (length (lists m n)) = m ^ N.of_nat n.
Proof.
  induction n as [|n IH]; [reflexivity|]. rewrite Nat2N.inj_succ, N.pow_succ_r', <- IH. cbn [lists].
  generalize (lists m n) as L. induction L as [|l L IHL]; [cbn; lia|]. cbn [flat_map length].
  rewrite app_length, map_length, below_length. lia.
Qed.

(** ** C65 *)
Lemma rc4_eq_dec (a b : rc4) : {a = b} + {a <> b}.
Proof. decide equality; try apply N.eq_dec. apply (list_eq_dec N.eq_dec). Qed.
Lemma hc_eq_dec (a b : hc) : {a = b} + {a <> b}.
Proof. decide equality; try apply N.eq_dec; apply (list_eq_dec N.eq_dec). Qed.
(** All generator states with tables of [n] entries below [m]. *)
Definition rc4_all (n : nat) (m : N) : list rc4 :=
  map (fun x => {| k_state := fst (fst x); k_i := snd (fst x); k_j := snd x |}) (list_prod (list_prod (lists m n) (below m)) (below m)).
Lemma rc4_all_in n m s : length (k_state s) = n -> Forall (fun x => x < m) (k_state s) -> k_i s < m -> k_j s < m -> In s (rc4_all n m).
Proof.
  intros Hl Hp Hi Hj. unfold rc4_all. apply in_map_iff. exists (k_state s, k_i s, k_j s). split; [destruct s; reflexivity|].
  apply in_prod; [|apply in_below, Hj]. apply in_prod; [|apply in_below, Hi]. apply in_lists; assumption.
Qed.
Lemma rc4_all_length n m : N.of_nat (length (rc4_all n m)) = m ^ N.of_nat n * m * m.
Proof. unfold rc4_all. rewrite map_length, !prod_length, !Nat2N.inj_mul, lists_length, !below_length, N2Nat.id. reflexivity. Qed.
(** [orbit], with the number of states as a number in binary. *)
Lemma rc4_orbit n m s : kwf s -> (forall s, kwf s -> length (k_state s) = n /\ Forall (fun x => x < m) (k_state s) /\ k_i s < m /\ k_j s < m) ->
  exists k, (0 < k)%nat /\ N.of_nat k <= m ^ N.of_nat n * m * m /\ prga_iter k s = s.
Proof.
  intros H F.
  destruct (orbit rc4 rc4_eq_dec prga_state kwf prga_wf
    (fun a b Ha Hb E => eq_trans (eq_sym (back_forth a Ha)) (eq_trans (f_equal prga_back E) (back_forth b Hb)))
    (rc4_all n m)) with (a := s) as (k & H1 & H2 & H3).
  - intros a Ha. destruct (F a Ha) as (A1 & A2 & A3 & A4). apply rc4_all_in; assumption.
  - exact H.
  - exists k. split; [exact H1|]. split; [rewrite <- rc4_all_length; lia|exact H3].
Qed.
Lemma iter_idx n : forall s, kwf s -> k_i (prga_iter n s) = (k_i s + N.of_nat n) mod 256.
Proof.
  induction n as [|n IH]; intros s H.
  - cbn. rewrite N.add_0_r, N.mod_small by apply H. reflexivity.
  - change (prga_iter (S n) s) with (prga_state (prga_iter n s)). unfold prga_state. cbn [k_i].
    rewrite IH by exact H. unfold add8. lia.
Qed.
(** RC4 started from any valid state returns to it, after a multiple of 256 bytes. *)
Theorem C65_rc4_state s : valid s ->
  exists k o, (0 < k)%nat /\ N.of_nat k <= 256 ^ 258 /\ (k mod 256 = 0)%nat /\ rc4_write s k = Ok (o, s).
Proof.
  intros H. change (kwf s) in H.
  destruct (rc4_orbit 256 256 s H) as (k & H1 & H2 & H3).
  { intros a (Hp & Hi & Hj). split; [apply perm_length, Hp|]. split; [apply perm_lt, Hp|]. split; assumption. }
  exists k. eexists. split; [exact H1|]. split; [exact H2|]. split.
  - pose proof (iter_idx k s H) as E. rewrite H3 in E. destruct H as (_ & Hi & _). lia.
  - rewrite rc4_write_ok by exact H. rewrite H3. reflexivity.
Qed.
Print Assumptions C65_rc4_state.
(** So the RC4 keystream of every key is purely periodic. *)
Theorem C65_rc4_keystream key : cipher_ok (CRc4 key) ->
  exists k, 0 < k <= 256 ^ 258 /\ k mod 256 = 0 /\ forall p, cipher_ks (CRc4 key) (p + k) = cipher_ks (CRc4 key) p.
Proof.
  intros [Hl _]. destruct (new_ok key Hl) as (s & E & Hwf & Hr).
  destruct (C65_rc4_state s Hwf) as (k & o & H1 & H2 & H3 & H4).
  exists (N.of_nat k). split; [lia|]. split; [lia|]. intros p. cbn [cipher_ks].
  rewrite <- !(sbyte_spec s key _ Hwf Hr). rewrite rc4_write_ok in H4 by exact Hwf.
  assert (E4 : prga_iter k s = s) by congruence.
  rewrite N2Nat.inj_add, Nat2N.id, Nat.add_comm, <- (sbyte_iter s k), E4. reflexivity.
Qed.
Print Assumptions C65_rc4_keystream.

Lemma iter_shift {A} (f : A -> A) k x : Nat.iter k f (f x) = Nat.iter (S k) f x.
Proof. induction k as [|k IH]; [reflexivity|]. change (f (Nat.iter k f (f x)) = f (Nat.iter (S k) f x)). rewrite IH. reflexivity. Qed.
Definition hc_next (ck : bool) (usz : N) (s : hc) : hc := match gen_word ck usz s with Ok (_, s') => s' | Panic => s end.
Lemma hc_next_valid ck usz s : usize usz -> hvalid s -> hvalid (hc_next ck usz s).
Proof. intros Hu H. destruct (C41_no_panic ck usz s Hu H) as (w & s' & E & _ & H'). unfold hc_next. rewrite E. exact H'. Qed.
Lemma hc_next_inj ck usz s t : usize usz -> hvalid s -> hvalid t -> hc_next ck usz s = hc_next ck usz t -> s = t.
Proof.
  intros Hu Hs Ht E. destruct (C41_no_panic ck usz s Hu Hs) as (w & s' & Es & _ & _), (C41_no_panic ck usz t Hu Ht) as (w' & t' & Et & _ & _).
  unfold hc_next in E. rewrite Es, Et in E. subst t'. exact (C55_step ck usz s t w w' s' Hu Hs Ht Es Et).
Qed.
Lemma hc_next_idx ck usz s : usize usz -> hvalid s -> h_idx (hc_next ck usz s) = (h_idx s + 1) mod 2048.
Proof.
  intros Hu H. destruct (gen_word_ok ck usz s _ _ Hu (hvalid_rel s H)) as (s' & E & _ & _ & I). unfold hc_next. rewrite E. exact I.
Qed.
Lemma hc_write_iter ck usz k : usize usz -> forall s, hvalid s -> exists o, hc_write ck usz k s = Ok (o, Nat.iter k (hc_next ck usz) s).
Proof.
  intros Hu. induction k as [|k IH]; intros s H; cbn [hc_write]; [eexists; reflexivity|].
  destruct (C41_no_panic ck usz s Hu H) as (w & s' & E & _ & H').
  assert (En : hc_next ck usz s = s') by (unfold hc_next; rewrite E; reflexivity).
  rewrite E. cbn [bind]. destruct (IH s' H') as (o & Eo). rewrite Eo. cbn [bind]. eexists. f_equal. f_equal.
  rewrite <- En. apply iter_shift.
Qed.
Lemma hc_iter_idx ck usz k s : usize usz -> hvalid s -> hvalid (Nat.iter k (hc_next ck usz) s)
  /\ h_idx (Nat.iter k (hc_next ck usz) s) = (h_idx s + N.of_nat k) mod 2048.
Proof.
  intros Hu H. induction k as [|k [IH1 IH2]].
  - split; [exact H|]. change (h_idx s = (h_idx s + 0) mod 2048). rewrite N.add_0_r, N.mod_small by apply H. reflexivity.
  - change (Nat.iter (S k) (hc_next ck usz) s) with (hc_next ck usz (Nat.iter k (hc_next ck usz) s)).
    split; [apply hc_next_valid; assumption|]. rewrite hc_next_idx, IH2 by assumption. lia.
Qed.
Definition hc_all (n : nat) (m i : N) : list hc :=
  map (fun x => {| h_p := fst (fst x); h_q := snd (fst x); h_idx := snd x |}) (list_prod (list_prod (lists m n) (lists m n)) (below i)).
Lemma hc_all_length n m i : N.of_nat (length (hc_all n m i)) = m ^ N.of_nat n * m ^ N.of_nat n * i.
Proof. unfold hc_all. rewrite map_length, !prod_length, !Nat2N.inj_mul, !lists_length, below_length, N2Nat.id. reflexivity. Qed.
Lemma hc_all_in n m i s : length (h_p s) = n -> Forall (fun x => x < m) (h_p s) -> length (h_q s) = n -> Forall (fun x => x < m) (h_q s) ->
  h_idx s < i -> In s (hc_all n m i).
Proof.
  intros L W L' W' I. unfold hc_all. apply in_map_iff. exists (h_p s, h_q s, h_idx s). split; [destruct s; reflexivity|].
  apply in_prod; [|apply in_below, I]. apply in_prod; apply in_lists; assumption.
Qed.
Lemma hc_orbit n m i ck usz s : usize usz -> hvalid s ->
  (forall s, hvalid s -> (length (h_p s) = n /\ Forall (fun x => x < m) (h_p s)) /\ (length (h_q s) = n /\ Forall (fun x => x < m) (h_q s)) /\ h_idx s < i) ->
  exists k, (0 < k)%nat /\ N.of_nat k <= m ^ N.of_nat n * m ^ N.of_nat n * i /\ Nat.iter k (hc_next ck usz) s = s.
Proof.
  intros Hu H F.
  destruct (orbit hc hc_eq_dec (hc_next ck usz) hvalid (fun a Ha => hc_next_valid ck usz a Hu Ha)
    (fun a b Ha Hb => hc_next_inj ck usz a b Hu Ha Hb) (hc_all n m i)) with (a := s) as (k & H1 & H2 & H3).
  - intros a Ha. destruct (F a Ha) as ((A1 & A2) & (A3 & A4) & A5). apply hc_all_in; assumption.
  - exact H.
  - exists k. split; [exact H1|]. split; [rewrite <- hc_all_length; lia|exact H3].
Qed.
(** The same for HC-256, after a multiple of 2048 words. *)
Theorem C65_hc256_state ck usz s : usize usz -> hvalid s ->
  exists k o, (0 < k)%nat /\ N.of_nat k <= (2 ^ 32) ^ 1024 * (2 ^ 32) ^ 1024 * 2048 /\ N.of_nat k mod 2048 = 0
  /\ hc_write ck usz k s = Ok (o, s).
Proof.
  intros Hu H. destruct (hc_orbit 1024 (2 ^ 32) 2048 ck usz s Hu H) as (k & H1 & H2 & H3); [intros a Ha; exact Ha|].
  destruct (hc_write_iter ck usz k Hu s H) as (o & Eo). rewrite H3 in Eo.
  exists k, o. split; [exact H1|]. split; [exact H2|]. split; [|exact Eo].
  pose proof (proj2 (hc_iter_idx ck usz k s Hu H)) as E. rewrite H3 in E. destruct H as (_ & _ & Hi). clear - E Hi. lia.
Qed.
Print Assumptions C65_hc256_state.

(** A ChaCha core is back in its initial state exactly when its counter is: nothing at
    this level stops it from running on (compare C18 for the wrapped cipher). *)
Theorem C65_chacha c p v n k st : u32x16 st ->
  exists out st', core_write c p v n k st = Ok (out, st') /\ (st' = st <-> N.of_nat k mod 2 ^ ctr_bits v = 0).
Proof.
  intros H. destruct (C08_only_the_counter_moves c p v n k st H) as (out & st' & E & _ & _ & Hp).
  exists out, st'. split; [exact E|]. rewrite core_write_ok in E by exact H.
  assert (Es : adv v (N.of_nat k) st = st') by congruence. clear E.
  assert (Hb : get_block_pos v st < 2 ^ ctr_bits v).
  { rewrite get_pos_ctr by exact H. destruct H as [Hl Hw]. destr16 st Hl. inv_forall.
    destruct v; unfold ctr64, get; cbn [nth ctr_bits]; change (2 ^ 64) with M64; change (2 ^ 32) with M32 in *; lia. }
  split.
  - intros ->. revert Hp Hb. generalize (get_block_pos v st) (N.of_nat k). intros g x.
    assert (M : 2 ^ ctr_bits v <> 0) by (destruct v; discriminate). revert M. generalize (2 ^ ctr_bits v). intros m Hm Hp Hb.
    rewrite <- (N.mod_small g m) in Hp at 1 by exact Hb.
    pose proof (N.mod_upper_bound x m Hm) as Hx. rewrite <- N.add_mod_idemp_r in Hp by exact Hm.
    rewrite (N.mod_small g m) in Hp by exact Hb.
    destruct (N.lt_ge_cases (g + x mod m) m) as [L|L].
    + rewrite N.mod_small in Hp by exact L. lia.
    + replace (g + x mod m) with (g + x mod m - m + 1 * m) in Hp by lia. rewrite N.mod_add, N.mod_small in Hp by lia. lia.
  - intros Hk. rewrite <- Es. transitivity (adv v 0 st); [|apply adv_0; exact H].
    destruct v; unfold adv; cbn [ctr_bits] in Hk; change (2 ^ 32) with M32 in Hk; change (2 ^ 64) with M64 in Hk;
      rewrite <- N.add_mod_idemp_r, Hk by discriminate; reflexivity.
Qed.
Print Assumptions C65_chacha.
(** Likewise Salsa without overflow checks (with them, C33: it panics first). *)
Theorem C65_salsa n k st : u32x16 st ->
  exists out st', salsa_write false n k st = Ok (out, st') /\ (st' = st <-> N.of_nat k mod 2 ^ 64 = 0).
Proof.
  intros H. change (2 ^ 64) with M64. rewrite salsa_write_ok by (try exact H; discriminate). do 2 eexists. split; [reflexivity|].
  assert (Hb := s_ctr_lt st H). split.
  - intros E. apply (f_equal s_ctr) in E. rewrite s_ctr_adv in E by exact H. lia.
  - intros Hk. transitivity (s_adv 0 st); [|apply s_adv_0; exact H]. unfold s_adv.
    rewrite <- N.add_mod_idemp_r, Hk by discriminate. reflexivity.
Qed.
Print Assumptions C65_salsa.

(** Instances. *)
Example C65_satisfiable :
  valid {| k_state := map N.of_nat (seq 0 256); k_i := 0; k_j := 1 |}
  /\ hvalid {| h_p := repeat 1 1024; h_q := repeat 2 1024; h_idx := 0 |} /\ usize (2 ^ 64)
  /\ u32x16 (repeat 0xffffffff 16)
  /\ get_block_pos Ietf (snd (ChaChaSoft.soft_gen_ks_block Ietf 4 (repeat 0xffffffff 16))) = 0.
Proof.
  split; [split; [apply Permutation_refl|]; split; reflexivity|].
  assert (F : forall c n, c < 2 ^ 32 -> Forall (fun w => w < 2 ^ 32) (repeat c n)) by (intros c n Hc; induction n; constructor; assumption).
  split; [split; [split; [apply repeat_length|apply F; reflexivity]|]; split; [split; [apply repeat_length|apply F; reflexivity]|reflexivity]|].
  split; [right; right; reflexivity|]. split; [split; [reflexivity|apply F; reflexivity]|]. vm_compute. reflexivity.
Qed.
