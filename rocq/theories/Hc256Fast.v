(** An executable form of the HC-256 specification (tables as binary tries), proved equal
    to it, so that the published test vectors can be evaluated. *)
From Verif Require Import Word WordLemmas SpecHC256 Hc256Proofs.
From Coq Require Import ZArith Lia ZifyBool ZifyNat ZifyN FMapPositive.
Ltac Zify.zify_post_hook ::= Z.div_mod_to_equations.

Definition trie := PositiveMap.t N.
Definition tget (m : trie) (x : N) : N :=
  match PositiveMap.find (N.succ_pos x) m with Some v => v | None => 0 end.
Definition tset (m : trie) (x v : N) : trie := PositiveMap.add (N.succ_pos x) v m.
Lemma tget_tset m j v x : tget (tset m j v) x = hc_upd (tget m) j v x.
Proof.
  unfold tget, tset, hc_upd. destruct (N.eqb_spec x j) as [->|Hne].
  - rewrite PositiveMap.gss. reflexivity.
  - rewrite PositiveMap.gso; [reflexivity|]. intros E. apply Hne.
    apply (f_equal N.pos) in E. rewrite !N.succ_pos_spec in E. lia.
Qed.
Fixpoint load (x : N) (l : list N) (m : trie) : trie :=
  match l with [] => m | v :: l' => load (x + 1) l' (tset m x v) end.
Lemma tget_load l : forall x0 m x, tget (load x0 l m) x =
  if (x0 <=? x) && (x <? x0 + N.of_nat (length l)) then nth (N.to_nat (x - x0)) l 0 else tget m x.
Proof.
  induction l as [|v l IH]; intros x0 m x; cbn [load].
  - cbn [length]. destruct ((x0 <=? x) && (x <? x0 + N.of_nat 0)) eqn:E; [lia|reflexivity].
  - rewrite IH, tget_tset. unfold hc_upd. cbn [length].
    destruct (N.eqb_spec x x0) as [->|Hne].
    + destruct ((x0 + 1 <=? x0) && _) eqn:E1; [lia|].
      destruct ((x0 <=? x0) && (x0 <? x0 + N.of_nat (S (length l)))) eqn:E2; [|lia].
      replace (N.to_nat (x0 - x0)) with 0%nat by lia. reflexivity.
    + destruct ((x0 + 1 <=? x) && (x <? x0 + 1 + N.of_nat (length l))) eqn:E1;
      destruct ((x0 <=? x) && (x <? x0 + N.of_nat (S (length l)))) eqn:E2; try lia.
      replace (N.to_nat (x - x0)) with (S (N.to_nat (x - (x0 + 1)))) by lia. reflexivity.
Qed.

(** One step on tries, and [k] steps with their outputs. *)
Definition fast_step (i : N) (t : trie * trie) : N * (trie * trie) :=
  let (mp, mq) := t in
  let P := tget mp in let Q := tget mq in
  let j := i mod 1024 in
  if i mod 2048 <? 1024 then
    let mp := tset mp j (hc_add (hc_add (P j) (P (hc_sub j 10))) (hc_g Q (P (hc_sub j 3)) (P (hc_sub j 1023)))) in
    (N.lxor (hc_h Q (tget mp (hc_sub j 12))) (tget mp j), (mp, mq))
  else
    let mq := tset mq j (hc_add (hc_add (Q j) (Q (hc_sub j 10))) (hc_g P (Q (hc_sub j 3)) (Q (hc_sub j 1023)))) in
    (N.lxor (hc_h P (tget mq (hc_sub j 12))) (tget mq j), (mp, mq)).
Fixpoint fast_run (k : nat) (i : N) (t : trie * trie) : list N * (trie * trie) :=
  match k with
  | O => ([], t)
  | S k' => let (o, t1) := fast_step i t in let (os, t2) := fast_run k' (i + 1) t1 in (o :: os, t2)
  end.
Definition slide (i : N) (w : list N) : list N :=
  let W k := nth k w 0 in
  tl w ++ [hc_add (hc_add (hc_add (hc_add (hc_f2 (W 14%nat)) (W 9%nat)) (hc_f1 (W 1%nat))) (W 0%nat)) (i + 16)].
Fixpoint fast_W (n : nat) (i : N) (w : list N) : list N :=
  match n with O => [] | S n' => nth 0 w 0 :: fast_W n' (i + 1) (slide i w) end.
Definition fast_words (key iv : list N) (k : nat) : list N :=
  let W := fast_W 2560 0 (hc_words key ++ hc_words iv) in
  let mp := load 0 (firstn 1024 (skipn 512 W)) (PositiveMap.empty N) in
  let mq := load 0 (skipn 1536 W) (PositiveMap.empty N) in
  fst (fast_run k 0 (snd (fast_run 4096 0 (mp, mq)))).

Definition trel (m : trie * trie) (t : (N -> N) * (N -> N)) : Prop :=
  (forall x, x < 1024 -> tget (fst m) x = fst t x) /\ (forall x, x < 1024 -> tget (snd m) x = snd t x).
Lemma g_eq T T' x y x' y' : (forall k, k < 1024 -> T k = T' k) -> x = x' -> y = y' -> hc_g T x y = hc_g T' x' y'.
Proof. intros E -> ->. unfold hc_g. rewrite E by (apply N.mod_lt; discriminate). reflexivity. Qed.
Lemma h_eq T T' x x' : (forall k, k < 1024 -> T k = T' k) -> x = x' -> hc_h T x = hc_h T' x'.
Proof.
  intros E ->. unfold hc_h. pose proof (hc_byte_lt x' 0). pose proof (hc_byte_lt x' 1). pose proof (hc_byte_lt x' 2). pose proof (hc_byte_lt x' 3).
  rewrite !E by lia. reflexivity.
Qed.
Lemma fast_step_ok i m t : trel m t -> fst (fast_step i m) = fst (hc_step i t) /\ trel (snd (fast_step i m)) (snd (hc_step i t)).
Proof.
  destruct m as [mp mq], t as [P Q]. intros [HP HQ]. cbn [fst snd] in HP, HQ. unfold fast_step, hc_step.
  assert (Hj : i mod 1024 < 1024) by (apply N.mod_lt; discriminate). set (j := i mod 1024) in *. clearbody j.
  pose proof (hc_sub_lt j 3). pose proof (hc_sub_lt j 10). pose proof (hc_sub_lt j 12). pose proof (hc_sub_lt j 1023).
  assert (HU : forall m T v, (forall x, x < 1024 -> tget m x = T x) -> forall x, x < 1024 -> tget (tset m j v) x = hc_upd T j v x).
  { intros m T v E x Hx. rewrite tget_tset. unfold hc_upd. rewrite E by exact Hx. reflexivity. }
  destruct (i mod 2048 <? 1024); cbn [fst snd].
  - rewrite !HP by assumption.
    rewrite (g_eq (tget mq) Q _ _ (P (hc_sub j 3)) (P (hc_sub j 1023)) HQ eq_refl eq_refl).
    set (v := hc_add _ _). pose proof (HU mp P v HP) as HP'. rewrite !HP' by assumption.
    rewrite (h_eq (tget mq) Q _ _ HQ eq_refl). split; [reflexivity|]. split; [exact HP'|exact HQ].
  - rewrite !HQ by assumption.
    rewrite (g_eq (tget mp) P _ _ (Q (hc_sub j 3)) (Q (hc_sub j 1023)) HP eq_refl eq_refl).
    set (v := hc_add _ _). pose proof (HU mq Q v HQ) as HQ'. rewrite !HQ' by assumption.
    rewrite (h_eq (tget mp) P _ _ HP eq_refl). split; [reflexivity|]. split; [exact HP|exact HQ'].
Qed.
Lemma fast_run_ok k : forall n m t, trel m (hc_run t n) ->
  fst (fast_run k (N.of_nat n) m) = map (fun i => fst (hc_step (N.of_nat i) (hc_run t i))) (seq n k)
  /\ trel (snd (fast_run k (N.of_nat n) m)) (hc_run t (n + k)).
Proof.
  induction k as [|k IH]; intros n m t H; cbn [fast_run].
  - rewrite Nat.add_0_r. auto.
  - destruct (fast_step_ok (N.of_nat n) m (hc_run t n) H) as [E1 H1].
    destruct (fast_step (N.of_nat n) m) as [o m1]. cbn [fst snd] in E1, H1.
    destruct (IH (S n) m1 t H1) as [E2 H2]. replace (N.of_nat (S n)) with (N.of_nat n + 1) in E2, H2 by lia.
    destruct (fast_run k (N.of_nat n + 1) m1) as [os m2]. cbn [fst snd] in *. cbn [seq map].
    rewrite E1, E2, Nat.add_succ_r. auto.
Qed.
Lemma fast_W_ok key iv n : forall i,
  fast_W n (N.of_nat i) (hc_window key iv i) = map (hc_W key iv) (seq i n).
Proof.
  induction n as [|n IH]; intros i; [reflexivity|]. cbn [fast_W seq map]. f_equal.
  change (slide (N.of_nat i) (hc_window key iv i)) with (hc_window key iv (S i)).
  replace (N.of_nat i + 1) with (N.of_nat (S i)) by lia. apply IH.
Qed.
Lemma skipn_map_seq {A} (f : nat -> A) a : forall s n, skipn a (map f (seq s (a + n))) = map f (seq (a + s) n).
Proof.
  induction a as [|a IH]; intros s n; [reflexivity|]. cbn [Nat.add seq map skipn]. rewrite IH. do 2 f_equal. lia.
Qed.
Lemma firstn_map_seq {A} (f : nat -> A) a : forall s n, firstn a (map f (seq s (a + n))) = map f (seq s a).
Proof.
  induction a as [|a IH]; intros s n; [reflexivity|]. cbn [Nat.add seq map firstn]. rewrite IH. reflexivity.
Qed.
Lemma load_W (f : nat -> N) lo x : x < 1024 ->
  tget (load 0 (map f (seq lo 1024)) (PositiveMap.empty N)) x = f (N.to_nat x + lo)%nat.
Proof.
  intros Hx. rewrite tget_load, map_length, seq_length.
  destruct ((0 <=? x) && (x <? 0 + N.of_nat 1024)) eqn:E; [|lia].
  rewrite (nth_indep _ 0 (f 0%nat)) by (rewrite map_length, seq_length; lia).
  rewrite map_nth, seq_nth by lia. f_equal. lia.
Qed.
Theorem fast_words_ok key iv k : fast_words key iv k = map (hc_word key iv) (seq 0 k).
Proof.
  unfold fast_words. cbv zeta.
  pose proof (fast_W_ok key iv 2560 0) as EW. change (N.of_nat 0) with 0 in EW. 
  change (hc_window key iv 0) with (hc_words key ++ hc_words iv) in EW. rewrite EW. clear EW.
  set (mp := load 0 _ _). set (mq := load 0 _ _).
  assert (H0 : trel (mp, mq) (hc_run (hc_tables key iv) 0)).
  { split; cbn [fst snd hc_run hc_tables]; intros x Hx.
    - unfold mp. replace 2560%nat with (512 + (1024 + 1024))%nat by reflexivity. rewrite (skipn_map_seq (hc_W key iv) 512 0 (1024 + 1024)), (firstn_map_seq _ 1024 _ 1024). apply load_W, Hx.
    - unfold mq. replace 2560%nat with (1536 + 1024)%nat by reflexivity. rewrite (skipn_map_seq (hc_W key iv) 1536 0 1024). apply load_W, Hx. }
  clearbody mp mq. destruct (fast_run_ok 4096 0 (mp, mq) _ H0) as [_ H1].
  remember (snd (fast_run 4096 (N.of_nat 0) (mp, mq))) as m1 eqn:Em. change (N.of_nat 0) with 0 in Em. rewrite <- Em.
  assert (H2 : trel m1 (hc_run (hc_init key iv) 0)) by exact H1.
  destruct (fast_run_ok k 0 m1 _ H2) as [E _]. exact E.
Qed.
