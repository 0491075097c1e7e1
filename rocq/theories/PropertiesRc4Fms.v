(** C79: the attack of Fluhrer, Mantin and Shamir on RC4 (FMS, the one that broke WEP).  When
    the first bytes of a key are known and leave the schedule in a "resolved" state, the
    first keystream byte gives the next key byte, unless one of three entries is
    moved afterwards. *)
From Verif Require Import Word WordLemmas Res SpecRC4 Rc4 SpecStream RabbitProofs Rc4Proofs PropCommon PropertiesRc4 PropertiesRc4Keys.
From Coq Require Import ZArith Lia ZifyBool ZifyNat ZifyN Permutation FinFun.
Ltac Zify.zify_post_hook ::= Z.div_mod_to_equations.
Local Open Scope N_scope.

(** What an attacker computes from the known bytes alone: whether they are resolved, and the
    next key byte that the first keystream byte [z] points to. *)
Definition resolved (known : list N) : bool :=
  let n := N.of_nat (length known) in
  let P := fst (rc_ksa known (length known)) in
  (2 <=? n) && (P 1 <? n) && ((P 1 + P (P 1)) mod 256 =? n).
Definition fms_guess (known : list N) (z : N) : N :=
  let (P, j) := rc_ksa known (length known) in
  let place := find (fun x => P x =? z) (map N.of_nat (seq 0 256)) in
  (match place with Some x => x | None => 0 end + 512 - j - P (N.of_nat (length known))) mod 256.
(** The rest of the schedule leaves alone the entries 1 and P[1], and entry n once it is set. *)
Definition undisturbed (key : list N) (n : nat) : Prop :=
  let P := fst (rc_ksa key n) in
  forall m, (n <= m < 256)%nat ->
    let j := snd (rc_ksa key (S m)) in j <> 1 /\ j <> P 1 /\ (n < m -> j <> N.of_nat n)%nat.

Lemma ksa_prefix key : forall m n, (m <= n)%nat -> (n <= length key)%nat -> (0 < n)%nat -> rc_ksa (firstn n key) m = rc_ksa key m.
Proof.
  induction m as [|m IH]; intros n Hm Hn H0; [reflexivity|]. cbn [rc_ksa]. rewrite IH by lia. destruct (rc_ksa key m) as [P j].
  rewrite firstn_length, Nat.min_l by exact Hn. rewrite !Nat.mod_small by lia.
  assert (E : nth m (firstn n key) 0 = nth m key 0).
  { rewrite <- (firstn_skipn n key) at 2. rewrite app_nth1; [reflexivity|]. rewrite firstn_length. lia. }
  rewrite E. reflexivity.
Qed.
Lemma ksa_range key n : (0 < length key)%nat -> (n <= 256)%nat ->
  (forall x, x < 256 -> fst (rc_ksa key n) x < 256) /\ (forall x y, x < 256 -> y < 256 -> fst (rc_ksa key n) x = fst (rc_ksa key n) y -> x = y).
Proof.
  intros Hk Hn. destruct (ksa_ok key n Hk Hn) as (l & j & _ & Hp & _ & E). split.
  - intros x Hx. rewrite <- E by exact Hx. apply at_lt; assumption.
  - intros x y Hx Hy H. rewrite <- !E in H by assumption. unfold at_ in H.
    assert (L : length l = 256%nat) by (apply perm_length; exact Hp).
    apply (proj1 (NoDup_nth l 0) (perm_NoDup l Hp)) in H; lia.
Qed.
Lemma ksa_index key n : snd (rc_ksa key n) < 256.
Proof. destruct n as [|n]; [reflexivity|]. cbn [rc_ksa]. destruct (rc_ksa key n) as [P j]. cbn [snd]. apply N.mod_lt. discriminate. Qed.
Lemma find_place P z x : (forall a b, a < 256 -> b < 256 -> P a = P b -> a = b) -> x < 256 -> P x = z ->
  find (fun y => P y =? z) (map N.of_nat (seq 0 256)) = Some x.
Proof.
  intros Inj Hx E. destruct (find (fun y => P y =? z) (map N.of_nat (seq 0 256))) as [y|] eqn:F.
  - apply find_some in F. destruct F as [Hy Ey]. apply N.eqb_eq in Ey. apply in_map_iff in Hy. destruct Hy as (k & <- & Hk).
    apply in_seq in Hk. f_equal. apply Inj; [lia|exact Hx|congruence].
  - exfalso. assert (G := find_none _ _ F x). cbv beta in G. rewrite E, N.eqb_refl in G.
    assert (In x (map N.of_nat (seq 0 256))); [|specialize (G H); discriminate G].
    apply in_map_iff. exists (N.to_nat x). split; [apply N2Nat.id|]. apply in_seq. lia.
Qed.
(** Entries that the rest of the schedule does not move. *)
Lemma ksa_keep key a x : x < N.of_nat a -> forall m, (a <= m)%nat ->
  (forall k, (a <= k < m)%nat -> snd (rc_ksa key (S k)) <> x) -> fst (rc_ksa key m) x = fst (rc_ksa key a) x.
Proof.
  intros Hx. induction m as [|m IH]; intros Hm H; [replace a with O by lia; reflexivity|].
  destruct (Nat.eq_dec a (S m)) as [->|Hne]; [reflexivity|].
  assert (J := H m ltac:(lia)). rewrite <- IH by (first [lia | intros; apply H; lia]).
  cbn [rc_ksa] in *. destruct (rc_ksa key m) as [P j]. cbn [fst snd] in *. unfold rc_swap.
  destruct (N.eqb_spec x (N.of_nat m)) as [|_]; [lia|]. destruct (N.eqb_spec x ((j + P (N.of_nat m) + nth (m mod length key) key 0) mod 256)); [congruence|reflexivity].
Qed.

(** ** The first byte *)
Lemma first_byte key n : (n < length key)%nat -> (length key <= 256)%nat -> (2 <= n)%nat ->
  let P := fst (rc_ksa key n) in
  P 1 < N.of_nat n -> (P 1 + P (P 1)) mod 256 = N.of_nat n -> undisturbed key n ->
  rc_byte key 0 = P (snd (rc_ksa key (S n))).
Proof.
  intros Hn Hk H2 P H1 Hs Hu. set (F := fst (rc_ksa key 256)).
  assert (F1 : F 1 = P 1).
  { apply (ksa_keep key n 1); [lia|lia|]. intros k Hkk. apply (Hu k). lia. }
  assert (F2 : F (P 1) = P (P 1)).
  { apply (ksa_keep key n (P 1)); [exact H1|lia|]. intros k Hkk. apply (Hu k). lia. }
  assert (F3 : F (N.of_nat n) = P (snd (rc_ksa key (S n)))).
  { transitivity (fst (rc_ksa key (S n)) (N.of_nat n)).
    - apply (ksa_keep key (S n) (N.of_nat n)); [lia|lia|]. intros k Hkk. apply (Hu k); lia.
    - cbn [rc_ksa]. unfold P. destruct (rc_ksa key n) as [P' j]. cbn [fst snd]. unfold rc_swap. rewrite N.eqb_refl. reflexivity. }
  unfold rc_byte, rc_init. fold F. cbn [Nat.iter nat_rect]. unfold rc_step, rc_out. cbv zeta.
  change ((0 + 1) mod 256) with 1. rewrite F1. change (0 + P 1) with (P 1).
  assert (L : P 1 < 256) by (apply (ksa_range key n); lia). rewrite (N.mod_small (P 1)) by exact L.
  assert (A1 : rc_swap F 1 (P 1) 1 = P (P 1)) by (unfold rc_swap; cbn [N.eqb Pos.eqb]; exact F2).
  assert (A2 : rc_swap F 1 (P 1) (P 1) = P 1).
  { unfold rc_swap. destruct (N.eqb_spec (P 1) 1) as [E|_]; [rewrite F2, E; exact E|]. rewrite N.eqb_refl. exact F1. }
  rewrite A1, A2, (N.add_comm (P (P 1))), Hs. unfold rc_swap.
  destruct (N.eqb_spec (N.of_nat n) 1) as [|_]; [lia|]. destruct (N.eqb_spec (N.of_nat n) (P 1)) as [|_]; [lia|]. exact F3.
Qed.

(** ** C79 *)
(** Any key, any number of known bytes, one known plaintext byte: the guess is the key byte. *)
Theorem C79_fms key n s p d c d' s' : bytes key -> (n < length key <= 256)%nat ->
  resolved (firstn n key) = true -> undisturbed key n ->
  new_from_slice key = Ok (Some s) -> rc4_apply s (p :: d) = Ok (c :: d', s') ->
  fms_guess (firstn n key) (N.lxor p c) = nth n key 0.
Proof.
  intros Hb [Hn Hk] Hr Hu Es Ea.
  unfold resolved in Hr. cbv zeta in Hr. rewrite firstn_length, Nat.min_l in Hr by lia.
  apply andb_true_iff in Hr. destruct Hr as [Hr H3]. apply andb_true_iff in Hr. destruct Hr as [H1 H2].
  apply N.leb_le in H1. rewrite ksa_prefix in H2, H3 by lia. apply N.ltb_lt in H2. apply N.eqb_eq in H3.
  assert (B := first_byte key n Hn Hk ltac:(lia) H2 H3 Hu).
  destruct (C42_rc4 key 1 ltac:(lia)) as (s0 & s1 & E0 & W). assert (s0 = s) by congruence. subst s0.
  cbn [rc4_write] in W. cbn [rc4_apply] in Ea. destruct (prga s) as [[ks s2]|]; cbn [bind] in *; [|discriminate W].
  cbn [seq map] in W. assert (Ek : ks = rc_byte key 0) by congruence.
  destruct (rc4_apply s2 d) as [[o s3]|]; cbn [bind] in Ea; [|discriminate Ea]. assert (Ec : c = N.lxor ks p) by congruence.
  assert (Ez : N.lxor p c = rc_byte key 0).
  { rewrite Ec, (N.lxor_comm ks p), <- N.lxor_assoc, N.lxor_nilpotent, N.lxor_0_l. exact Ek. }
  rewrite Ez, B. unfold fms_guess. rewrite firstn_length, Nat.min_l, ksa_prefix by lia.
  destruct (ksa_range key n ltac:(lia) ltac:(lia)) as [Rg Inj]. assert (J := ksa_index key n). assert (J' := ksa_index key (S n)).
  assert (Es' : snd (rc_ksa key (S n)) = (snd (rc_ksa key n) + fst (rc_ksa key n) (N.of_nat n) + nth n key 0) mod 256).
  { cbn [rc_ksa]. destruct (rc_ksa key n) as [P j]. cbn [fst snd]. rewrite Nat.mod_small by exact Hn. reflexivity. }
  destruct (rc_ksa key n) as [P j]. cbn [fst snd] in *.
  rewrite (find_place P _ _ Inj J' eq_refl). rewrite Es'.
  assert (Pn := Rg (N.of_nat n) ltac:(lia)). assert (Kn : nth n key 0 < 256).
  { apply (proj1 (Forall_forall _ _) Hb). apply nth_In. exact Hn. }
  clear - J Pn Kn. lia.
Qed.
(** The IVs (3, 255, x) of WEP are resolved whatever the secret behind them, save two values of x. *)
Theorem C79_weak_iv x secret : x < 256 -> x <> 251 -> x <> 252 -> resolved (firstn 3 (3 :: 255 :: x :: secret)) = true.
Proof.
  intros Hx H1 H2. cbn [firstn].
  assert (A : forallb (fun x => (x =? 251) || (x =? 252) || resolved [3; 255; x]) (map N.of_nat (seq 0 256)) = true) by (vm_compute; reflexivity).
  rewrite forallb_forall in A. assert (I : In x (map N.of_nat (seq 0 256))) by (apply in_map_iff; exists (N.to_nat x); split; [apply N2Nat.id|apply in_seq; lia]).
  specialize (A x I). destruct (N.eqb_spec x 251) as [|_]; [contradiction|]. destruct (N.eqb_spec x 252) as [|_]; [contradiction|]. exact A.
Qed.

(** All indices of the schedule from step [i] on, to check [undisturbed] by computation. *)
Fixpoint indices (key : list N) (c i : nat) (l : list N) (j : N) : list N :=
  match c with
  | O => []
  | S c => let j' := add8 (add8 j (at_ l (N.of_nat i))) (nth (i mod length key)%nat key 0) in
           j' :: indices key c (S i) (swap_list l (N.of_nat i) j') j'
  end.
Lemma indices_ok key : (0 < length key)%nat -> forall c i k, (k < c)%nat -> (i + c <= 256)%nat ->
  nth k (indices key c i (fst (ks_at key i)) (snd (ks_at key i))) 0 = snd (rc_ksa key (S (i + k))).
Proof.
  intros Hl. induction c as [|c IH]; intros i k Hk Hc; [lia|]. cbn [indices].
  assert (E : (swap_list (fst (ks_at key i)) (N.of_nat i) (add8 (add8 (snd (ks_at key i)) (at_ (fst (ks_at key i)) (N.of_nat i))) (nth (i mod length key) key 0)),
               add8 (add8 (snd (ks_at key i)) (at_ (fst (ks_at key i)) (N.of_nat i))) (nth (i mod length key) key 0)) = ks_at key (S i)).
  { cbn [ks_at]. destruct (ks_at key i) as [l j]. reflexivity. }
  assert (E1 := f_equal fst E). assert (E2 := f_equal snd E). cbn [fst snd] in E1, E2. rewrite E1, E2. destruct k as [|k]; cbn [nth].
  - rewrite Nat.add_0_r. apply (ks_at_ok key (S i)); lia.
  - rewrite IH by lia. do 3 f_equal. lia.
Qed.
Definition undisturbedb (key : list N) (n : nat) : bool :=
  let P1 := at_ (fst (ks_at key n)) 1 in
  let js := indices key (256 - n) n (fst (ks_at key n)) (snd (ks_at key n)) in
  forallb (fun k => let j := nth k js 0 in negb (j =? 1) && negb (j =? P1) && ((k =? 0)%nat || negb (j =? N.of_nat n))) (seq 0 (256 - n)).
Lemma undisturbedb_ok key n : (0 < length key)%nat -> (n <= 256)%nat -> undisturbedb key n = true -> undisturbed key n.
Proof.
  intros Hl Hn H m Hm j. unfold undisturbedb in H. cbv zeta in H. rewrite forallb_forall in H. specialize (H (m - n)%nat ltac:(apply in_seq; lia)).
  rewrite indices_ok in H by lia. replace (n + (m - n))%nat with m in H by lia. fold j in H.
  assert (EP : at_ (fst (ks_at key n)) 1 = fst (rc_ksa key n) 1).
  { destruct (ks_at_ok key n Hl Hn) as (E & _). destruct (ksa_ok key n Hl Hn) as (l & j0 & E' & _ & _ & G). rewrite E in E'.
    assert (E2 : ks_at key n = (l, j0)) by congruence. rewrite E2. apply G. reflexivity. }
  rewrite EP in H. apply andb_true_iff in H. destruct H as [H Hc]. apply andb_true_iff in H. destruct H as [Ha Hb].
  apply negb_true_iff, N.eqb_neq in Ha. apply negb_true_iff, N.eqb_neq in Hb. split; [exact Ha|]. split; [exact Hb|].
  intros Hnm. destruct (Nat.eqb_spec (m - n) 0) as [|_]; [lia|]. cbn [orb] in Hc. apply negb_true_iff, N.eqb_neq in Hc. exact Hc.
Qed.

(** The key 03 ff 17 57 69 46 69 21: known IV, secret "WiFi!"; the first plaintext byte aa (the
    SNAP header) gives the secret's first byte 57.  With the IV 03 ff 00 an entry is moved and
    the guess fails; 04 00 00 is not resolved. *)
Definition wep (x : N) : list N := [3; 255; x; 0x57; 0x69; 0x46; 0x69; 0x21].
Example C79_satisfiable :
  bytes (wep 23) /\ resolved (firstn 3 (wep 23)) = true /\ undisturbed (wep 23) 3
  /\ (exists s c d' s', new_from_slice (wep 23) = Ok (Some s) /\ rc4_apply s [0xaa; 0xaa; 3] = Ok (c :: d', s')
      /\ c = 0xde /\ fms_guess [3; 255; 23] (N.lxor 0xaa c) = 0x57)
  /\ undisturbedb (wep 0) 3 = false /\ resolved [4; 0; 0] = false.
Proof.
  split; [repeat constructor|]. split; [vm_compute; reflexivity|].
  split; [apply undisturbedb_ok; [cbn [length wep]; lia|lia|vm_compute; reflexivity]|].
  split; [do 4 eexists; split; [vm_compute; reflexivity|]; split; [vm_compute; reflexivity|]; split; vm_compute; reflexivity|].
  split; vm_compute; reflexivity.
Qed.
Print Assumptions C79_fms.
Print Assumptions C79_weak_iv.
