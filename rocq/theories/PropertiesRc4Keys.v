(** C76: the keys of RC4.  Every state is the state of a 256-byte key that one computes from it;
    keys of 256 bytes whose schedule ever looks back have a twin; a state found later gives
    a key for everything before. *)
From Verif Require Import Word WordLemmas Res SpecRC4 Rc4 SpecStream RabbitProofs Rc4Proofs PropCommon PropertiesRc4.
From Coq Require Import ZArith Lia ZifyBool ZifyNat ZifyN Permutation FinFun.
Ltac Zify.zify_post_hook ::= Z.div_mod_to_equations.
Local Open Scope N_scope.

(** Exchange of two entries of a table of 256. *)
Definition exchange (t : list N) (a b : nat) : list N :=
  map (fun k => nth (if k =? a then b else if k =? b then a else k)%nat t 0) (seq 0 256).
(** The place of a value. *)
Fixpoint place (x : N) (t : list N) : nat :=
  match t with [] => O | y :: t' => if x =? y then O else S (place x t') end.
(** The key bytes from the [i]-th on that lead from table [s] and index [j] to the table [t]:
    each step brings the right value to its place. *)
Fixpoint key_from (t : list N) (i m : nat) (s : list N) (j : N) : list N :=
  match m with
  | O => []
  | S m' => let p := place (nth i t 0) s in
            (N.of_nat p + 512 - j - nth i s 0) mod 256 :: key_from t (S i) m' (exchange s i p) (N.of_nat p)
  end.
Definition key_for (t : list N) : list N := key_from t 0 256 (map N.of_nat (seq 0 256)) 0.
(** One byte back. *)
Definition rewind (s : rc4) : rc4 :=
  let t := exchange (k_state s) (N.to_nat (k_i s)) (N.to_nat (k_j s)) in
  {| k_state := t; k_i := (k_i s + 255) mod 256; k_j := (k_j s + 256 - nth (N.to_nat (k_i s)) t 0) mod 256 |}.
(** The key schedule never looks back: index [j] of step [i] is at least [i]. *)
Definition ascending (key : list N) : Prop := forall i, (i < 256)%nat -> N.of_nat i <= snd (rc_ksa key (S i)).

Lemma nth_exchange t a b x : (x < 256)%nat -> nth x (exchange t a b) 0 = nth (if x =? a then b else if x =? b then a else x)%nat t 0.
Proof.
  intros H. unfold exchange. set (f := fun k => nth _ t 0). rewrite (nth_indep _ 0 (f 0%nat)) by (rewrite map_length, seq_length; exact H).
  rewrite map_nth, seq_nth by exact H. reflexivity.
Qed.
Lemma exchange_swap t a b : length t = 256%nat -> (a < 256)%nat -> (b < 256)%nat -> exchange t a b = swap_list t (N.of_nat a) (N.of_nat b).
Proof.
  intros L Ha Hb. apply nth_ext with (d := 0) (d' := 0); [rewrite swap_list_length; unfold exchange; rewrite map_length, seq_length, L; reflexivity|].
  intros x Hx. assert (Hx' : (x < 256)%nat) by (unfold exchange in Hx; rewrite map_length, seq_length in Hx; exact Hx).
  rewrite nth_exchange by exact Hx'. pose proof (at_swap t (N.of_nat a) (N.of_nat b) (N.of_nat x) L ltac:(lia) ltac:(lia) ltac:(lia)) as E.
  unfold at_ at 1 in E. rewrite Nat2N.id in E. rewrite E. unfold rc_swap, at_.
  destruct (Nat.eqb_spec x a), (N.eqb_spec (N.of_nat x) (N.of_nat a)); try lia; [rewrite Nat2N.id; reflexivity|].
  destruct (Nat.eqb_spec x b), (N.eqb_spec (N.of_nat x) (N.of_nat b)); try lia; rewrite Nat2N.id; reflexivity.
Qed.
Lemma place_nth l : forall i, NoDup l -> (i < length l)%nat -> place (nth i l 0) l = i.
Proof.
  induction l as [|y l IH]; intros i Hd Hi; [cbn in Hi; lia|]. inversion Hd as [|? ? H1 H2]; subst. destruct i as [|i]; cbn [nth place].
  - rewrite N.eqb_refl. reflexivity.
  - cbn [length] in Hi. destruct (N.eqb_spec (nth i l 0) y) as [E|_]; [exfalso; apply H1; rewrite <- E; apply nth_In; lia|]. rewrite IH by (try assumption; lia). reflexivity.
Qed.
Lemma place_in x l : In x l -> (place x l < length l)%nat /\ nth (place x l) l 0 = x.
Proof.
  induction l as [|y l IH]; intros H; [destruct H|]. cbn [place length]. destruct (N.eqb_spec x y) as [->|Hn]; [split; [lia | reflexivity]|].
  destruct H as [->|H]; [congruence|]. destruct (IH H) as [A B]. split; [lia | exact B].
Qed.

(** The key schedule as a function. *)
Fixpoint ks_at (key : list N) (n : nat) : list N * N :=
  match n with
  | O => (id256, 0)
  | S m => let (l, j) := ks_at key m in
           let j' := add8 (add8 j (at_ l (N.of_nat m))) (nth (m mod length key)%nat key 0) in
           (swap_list l (N.of_nat m) j', j')
  end.
Lemma ks_at_ok key n : (0 < length key)%nat -> (n <= 256)%nat ->
  for_ (seq 0 n) (ksa_step key) (id256, 0) = Ok (ks_at key n) /\ perm (fst (ks_at key n)) /\ snd (ks_at key n) < 256 /\ snd (ks_at key n) = snd (rc_ksa key n).
Proof.
  intros Hk Hn. assert (A : for_ (seq 0 n) (ksa_step key) (id256, 0) = Ok (ks_at key n) /\ perm (fst (ks_at key n)) /\ snd (ks_at key n) < 256).
  { induction n as [|n IH]; [split; [reflexivity|]; split; [apply Permutation_refl | reflexivity]|].
    destruct (IH ltac:(lia)) as (E & Hp & Hj). rewrite seq_S, for_app, E. cbn [bind for_ Nat.add ks_at]. destruct (ks_at key n) as [l j]. cbn [fst snd] in *.
    rewrite ksa_step_ok by (try assumption; lia). cbn [bind for_ fst snd]. split; [reflexivity|]. split; [apply swap_is_perm; try assumption; try lia; apply add8_lt | apply add8_lt]. }
  destruct A as (E & Hp & Hj). split; [exact E|]. split; [exact Hp|]. split; [exact Hj|].
  destruct (ksa_ok key n Hk Hn) as (l & j & E' & _ & Ej & _). rewrite E in E'. assert (E2 : ks_at key n = (l, j)) by congruence. rewrite E2. exact Ej.
Qed.
Lemma new_ks key : (1 <= length key <= 256)%nat -> new_from_slice key = Ok (Some {| k_state := fst (ks_at key 256); k_i := 0; k_j := 0 |}).
Proof.
  intros Hk. unfold new_from_slice. rewrite (proj2 (len_check key) Hk).
  replace (assert_ (forallb (fun i => N.of_nat i <? 256) (seq 0 256))) with (Ok tt) by reflexivity. cbn [bind].
  fold id256. rewrite (proj1 (ks_at_ok key 256 ltac:(lia) (le_n _))). cbn [bind]. destruct (ks_at key 256) as [l j]. reflexivity.
Qed.
Lemma nth_perm l i : perm l -> (i < 256)%nat -> nth i l 0 < 256.
Proof. intros H Hi. pose proof (at_lt l (N.of_nat i) H) as A. unfold at_ in A. rewrite Nat2N.id in A. exact A. Qed.
Lemma key_byte j s p : j < 256 -> s < 256 -> p < 256 -> add8 (add8 j s) ((p + 512 - j - s) mod 256) = p.
Proof. intros. unfold add8. lia. Qed.
Lemma key_byte_back j s k : j < 256 -> s < 256 -> k < 256 -> (add8 (add8 j s) k + 512 - j - s) mod 256 = k.
Proof. intros. unfold add8. lia. Qed.

Lemma key_from_length t m : forall i s j, length (key_from t i m s j) = m.
Proof. induction m as [|m IH]; intros; cbn [key_from length]; [reflexivity|]. rewrite IH. reflexivity. Qed.
Lemma key_from_bytes t m : forall i s j, Forall (fun b => b < 256) (key_from t i m s j).
Proof. induction m as [|m IH]; intros; cbn [key_from]; constructor; [apply N.mod_lt; discriminate | apply IH]. Qed.
Lemma skipn_cons (l : list N) n x r : skipn n l = x :: r -> nth n l 0 = x /\ skipn (S n) l = r /\ (n < length l)%nat.
Proof.
  revert n. induction l as [|y l IH]; intros [|n] H; cbn [skipn nth length] in *; try discriminate; [injection H as -> ->; split; [reflexivity|]; split; [reflexivity | lia]|].
  destruct (IH n H) as (A & B & C). split; [exact A|]. split; [exact B | lia].
Qed.

(** The computed key leads to the table it was computed from. *)
Lemma key_for_run t : perm t -> forall n, (n <= 256)%nat ->
  (forall x, (x < n)%nat -> nth x (fst (ks_at (key_for t) n)) 0 = nth x t 0)
  /\ skipn n (key_for t) = key_from t n (256 - n) (fst (ks_at (key_for t) n)) (snd (ks_at (key_for t) n)).
Proof.
  intros Ht. assert (Lk : length (key_for t) = 256%nat) by apply key_from_length. set (key := key_for t) in *.
  induction n as [|n IH]; intros Hn; [split; [intros x Hx; lia | reflexivity]|].
  destruct (IH ltac:(lia)) as [Hx Hs]. destruct (ks_at_ok key n ltac:(lia) ltac:(lia)) as (_ & Hp & Hj & _).
  cbn [ks_at]. destruct (ks_at key n) as [l j]. cbn [fst snd] in *. replace (256 - n)%nat with (S (256 - S n)) in Hs by lia. cbn [key_from] in Hs.
  apply skipn_cons in Hs. destruct Hs as (Hb & Hr & _). rewrite Lk, Nat.mod_small by lia. rewrite Hb. set (p := place (nth n t 0) l) in *.
  assert (Hin : In (nth n t 0) l). { apply (Permutation_in _ (Permutation_sym Hp)). apply (Permutation_in _ Ht). apply nth_In. rewrite (perm_length t Ht). lia. }
  destruct (place_in _ _ Hin) as [Hp1 Hp2]. fold p in Hp1, Hp2. rewrite (perm_length l Hp) in Hp1.
  assert (El : at_ l (N.of_nat n) = nth n l 0) by (unfold at_; rewrite Nat2N.id; reflexivity).
  rewrite El, key_byte by (try exact Hj; try (apply nth_perm; [exact Hp | lia]); lia).
  assert (Hge : (n <= p)%nat).
  { destruct (Nat.lt_ge_cases p n) as [Hlt|]; [|assumption]. exfalso.
    assert (p = n); [|lia]. apply (proj1 (NoDup_nth t 0) (perm_NoDup t Ht)); rewrite ?(perm_length t Ht); try lia. rewrite <- (Hx p Hlt). exact Hp2. }
  rewrite <- exchange_swap by (try apply perm_length; try assumption; lia). split.
  - intros x Hxn. rewrite nth_exchange by lia. destruct (Nat.eqb_spec x n) as [->|Hne]; [exact Hp2|].
    destruct (Nat.eqb_spec x p) as [->|_]; [lia|]. apply Hx. lia.
  - exact Hr.
Qed.
(** Every permutation of 0..255 is the state of a key of 256 bytes. *)
Theorem C76_equivalent_key t : Permutation t (map N.of_nat (seq 0 256)) ->
  length (key_for t) = 256%nat /\ bytes (key_for t)
  /\ new_from_slice (key_for t) = Ok (Some {| k_state := t; k_i := 0; k_j := 0 |}).
Proof.
  intros Ht. assert (Lk : length (key_for t) = 256%nat) by apply key_from_length. split; [exact Lk|]. split; [apply key_from_bytes|].
  rewrite new_ks by lia. repeat f_equal. destruct (key_for_run t Ht 256 (le_n _)) as [H _].
  destruct (ks_at_ok (key_for t) 256 ltac:(lia) (le_n _)) as (_ & Hp & _).
  apply nth_ext with (d := 0) (d' := 0); [rewrite (perm_length _ Hp), (perm_length t Ht); reflexivity|].
  intros x Hx. apply H. rewrite (perm_length _ Hp) in Hx. exact Hx.
Qed.
Print Assumptions C76_equivalent_key.

(** Among the keys whose schedule never looks back there is exactly one for each state. *)
Lemma stable key n m : (0 < length key)%nat -> ascending key -> (n + m <= 256)%nat -> forall x, (x < n)%nat ->
  nth x (fst (ks_at key (n + m))) 0 = nth x (fst (ks_at key n)) 0.
Proof.
  intros Hk Ha. induction m as [|m IH]; intros Hn x Hx; [rewrite Nat.add_0_r; reflexivity|].
  rewrite <- (IH ltac:(lia) x Hx). replace (n + S m)%nat with (S (n + m)) by lia.
  destruct (ks_at_ok key (n + m) Hk ltac:(lia)) as (_ & Hp & _ & _). destruct (ks_at_ok key (S (n + m)) Hk ltac:(lia)) as (_ & _ & Hj & Ej).
  specialize (Ha (n + m)%nat ltac:(lia)). rewrite <- Ej in Ha. cbn [ks_at] in *. destruct (ks_at key (n + m)) as [l j]. cbn [fst snd] in *.
  set (j' := add8 _ _) in *. rewrite <- (N2Nat.id j'), <- exchange_swap by (try apply perm_length; try assumption; lia).
  rewrite nth_exchange by lia. destruct (Nat.eqb_spec x (n + m)) as [|_]; [lia|]. destruct (Nat.eqb_spec x (N.to_nat j')) as [|_]; [lia|]. reflexivity.
Qed.
Theorem C76_unique key s : length key = 256%nat -> bytes key -> ascending key -> new_from_slice key = Ok (Some s) -> key_for (k_state s) = key.
Proof.
  intros Lk Bk Ha E. rewrite new_ks in E by lia.
  assert (Es : s = {| k_state := fst (ks_at key 256); k_i := 0; k_j := 0 |}) by congruence. rewrite Es. cbn [k_state]. clear E Es. set (t := fst (ks_at key 256)).
  assert (G : forall m n, (n + m = 256)%nat -> key_from t n m (fst (ks_at key n)) (snd (ks_at key n)) = skipn n key).
  { induction m as [|m IH]; intros n Hn; [cbn [key_from]; symmetry; apply skipn_all2; lia|].
    destruct (ks_at_ok key n ltac:(lia) ltac:(lia)) as (_ & Hp & Hj & _). destruct (ks_at_ok key (S n) ltac:(lia) ltac:(lia)) as (_ & _ & Hj' & _).
    specialize (IH (S n) ltac:(lia)). pose proof (stable key (S n) m ltac:(lia) Ha ltac:(lia) n ltac:(lia)) as St.
    replace (S n + m)%nat with 256%nat in St by lia. fold t in St. cbn [key_from].
    assert (Kn : nth n key 0 < 256) by (apply (proj1 (Forall_forall _ _) Bk); apply nth_In; lia).
    assert (Sk : skipn n key = nth n key 0 :: skipn (S n) key).
    { assert (Hlt : (n < length key)%nat) by lia. clear -Hlt. revert n Hlt. induction key as [|y k IH]; intros n H; [cbn in H; lia|]. destruct n as [|n]; [reflexivity|]. cbn [skipn nth length] in *. apply IH. lia. }
    cbn [ks_at] in IH, St, Hj'. destruct (ks_at key n) as [l j]. cbn [fst snd] in *. rewrite Lk, Nat.mod_small in * by lia.
    set (j' := add8 (add8 j (at_ l (N.of_nat n))) (nth n key 0)) in *.
    assert (Pl : place (nth n t 0) l = N.to_nat j').
    { rewrite St. replace (swap_list l (N.of_nat n) j') with (exchange l n (N.to_nat j')) by (rewrite exchange_swap, N2Nat.id by (try apply perm_length; try assumption; lia); reflexivity).
      rewrite nth_exchange, Nat.eqb_refl by lia. apply place_nth; [apply perm_NoDup, Hp | rewrite (perm_length l Hp); lia]. }
    rewrite Pl. rewrite N2Nat.id. rewrite exchange_swap by (try apply perm_length; try assumption; lia). rewrite N2Nat.id, IH, Sk. f_equal.
    unfold j'. unfold at_. rewrite Nat2N.id. apply key_byte_back; [exact Hj | apply nth_perm; [exact Hp | lia] | exact Kn]. }
  exact (G 256%nat 0%nat eq_refl).
Qed.
Print Assumptions C76_unique.
Lemma key_for_ascending t : perm t -> ascending (key_for t).
Proof.
  intros Ht i Hi. assert (Lk : length (key_for t) = 256%nat) by apply key_from_length.
  destruct (key_for_run t Ht i ltac:(lia)) as [Hx Hs]. destruct (ks_at_ok (key_for t) i ltac:(lia) ltac:(lia)) as (_ & Hp & Hj & _).
  destruct (ks_at_ok (key_for t) (S i) ltac:(lia) ltac:(lia)) as (_ & _ & _ & Ej). rewrite <- Ej.
  cbn [ks_at]. destruct (ks_at (key_for t) i) as [l j]. cbn [fst snd] in *. replace (256 - i)%nat with (S (256 - S i)) in Hs by lia. cbn [key_from] in Hs.
  apply skipn_cons in Hs. destruct Hs as (Hb & Hr & _). rewrite Lk, Nat.mod_small by lia. rewrite Hb. set (p := place (nth i t 0) l) in *.
  assert (Hin : In (nth i t 0) l). { apply (Permutation_in _ (Permutation_sym Hp)). apply (Permutation_in _ Ht). apply nth_In. rewrite (perm_length t Ht). lia. }
  destruct (place_in _ _ Hin) as [Hp1 Hp2]. fold p in Hp1, Hp2. rewrite (perm_length l Hp) in Hp1.
  assert (El : at_ l (N.of_nat i) = nth i l 0) by (unfold at_; rewrite Nat2N.id; reflexivity).
  rewrite El, key_byte by (try exact Hj; try (apply nth_perm; [exact Hp | lia]); lia).
  destruct (Nat.lt_ge_cases p i) as [Hlt|]; [|lia]. exfalso.
  assert (p = i); [|lia]. apply (proj1 (NoDup_nth t 0) (perm_NoDup t Ht)); rewrite ?(perm_length t Ht); try lia. rewrite <- (Hx p Hlt). exact Hp2.
Qed.
(** So every other key of 256 bytes has a twin of the same length, with the same state
    and hence the same keystream. *)
Theorem C76_twin key s : length key = 256%nat -> bytes key -> new_from_slice key = Ok (Some s) -> ~ ascending key ->
  length (key_for (k_state s)) = 256%nat /\ bytes (key_for (k_state s)) /\ key_for (k_state s) <> key
  /\ new_from_slice (key_for (k_state s)) = new_from_slice key.
Proof.
  intros Lk Bk E Hn. pose proof E as E'. rewrite new_ks in E' by lia. destruct (ks_at_ok key 256 ltac:(lia) (le_n _)) as (_ & Hp & _).
  assert (Es : s = {| k_state := fst (ks_at key 256); k_i := 0; k_j := 0 |}) by congruence.
  assert (Ps : perm (k_state s)) by (rewrite Es; exact Hp). destruct (C76_equivalent_key (k_state s) Ps) as (A & B & C).
  split; [exact A|]. split; [exact B|]. split; [intros F; apply Hn; rewrite <- F; apply key_for_ascending; exact Ps|].
  rewrite C, E, Es. reflexivity.
Qed.
Print Assumptions C76_twin.

(** A state found after [n] bytes, rewound, gives a key for the whole stream. *)
Lemma rewind_back s : kwf s -> rewind s = prga_back s.
Proof.
  intros (Hp & Hi & Hj). unfold rewind, prga_back. rewrite exchange_swap by (try apply perm_length; try assumption; lia). rewrite !N2Nat.id.
  unfold sub8, at_. f_equal. replace (k_i s + 256 - 1) with (k_i s + 255) by lia. reflexivity.
Qed.
Theorem C76_state_found key s0 n ks s : new_from_slice key = Ok (Some s0) -> rc4_write s0 n = Ok (ks, s) ->
  new_from_slice (key_for (k_state (Nat.iter n rewind s))) = Ok (Some s0).
Proof.
  intros E W. assert (Hk : (1 <= length key <= 256)%nat).
  { apply len_check. unfold new_from_slice in E. destruct ((length key <? 1) || (256 <? length key))%nat; [discriminate E | reflexivity]. }
  destruct (new_ok key Hk) as (s1 & E1 & K & _). assert (s1 = s0) by congruence. subst s1.
  rewrite rc4_write_ok in W by exact K. assert (Es : s = prga_iter n s0) by congruence. rewrite Es.
  assert (R : Nat.iter n rewind (prga_iter n s0) = s0).
  { clear -K. revert s0 K. induction n as [|n IH]; intros s0 K; [reflexivity|].
    assert (Sh : prga_iter (S n) s0 = prga_iter n (prga_state s0)).
    { clear. induction n as [|n IH]; [reflexivity|]. exact (f_equal prga_state IH). }
    rewrite Sh. change (rewind (Nat.iter n rewind (prga_iter n (prga_state s0))) = s0). rewrite (IH _ (prga_wf _ K)). rewrite rewind_back by (apply prga_wf; exact K). apply back_forth. exact K. }
  rewrite R. rewrite new_ks in E by exact Hk. destruct (ks_at_ok key 256 ltac:(lia) (le_n _)) as (_ & Hp & _).
  assert (Ez : s0 = {| k_state := fst (ks_at key 256); k_i := 0; k_j := 0 |}) by congruence. rewrite Ez. cbn [k_state].
  apply C76_equivalent_key. exact Hp.
Qed.
Print Assumptions C76_state_found.

(** The all-zero key of 256 bytes looks back (first at step 25) and has a twin; a permutation
    that is not the identity. *)
Definition rk_rev : list N := rev (map N.of_nat (seq 0 256)).
Example C76_satisfiable :
  Permutation rk_rev (map N.of_nat (seq 0 256)) /\ firstn 4 (key_for rk_rev) = [255; 254; 253; 252]
  /\ ~ ascending (repeat 0 256)
  /\ (exists s, new_from_slice (repeat 0 256) = Ok (Some s) /\ firstn 4 (key_for (k_state s)) = [0; 34; 222; 38])
  /\ ascending (key_for rk_rev).
Proof.
  split; [apply Permutation_sym, Permutation_rev|]. split; [vm_compute; reflexivity|]. split; [intros H; specialize (H 25%nat ltac:(lia)); vm_compute in H; exact (H eq_refl)|].
  split; [eexists; split; [vm_compute; reflexivity | vm_compute; reflexivity]|]. apply key_for_ascending. apply Permutation_sym, Permutation_rev.
Qed.
