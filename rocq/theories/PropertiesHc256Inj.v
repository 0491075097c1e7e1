(** C55: HC-256 loses nothing: the state update is injective, and distinct (key, IV)
    pairs never reach the same state. *)
From Verif Require Import Word WordLemmas Res SpecHC256 Hc256 Hc256Proofs PropCommon PropertiesPermutation PropertiesHc256.
From Coq Require Import ZArith Lia ZifyBool ZifyNat ZifyN.
Ltac Zify.zify_post_hook ::= Z.div_mod_to_equations.

(** ** Tables as functions *)
Definition agree (t t' : (N -> N) * (N -> N)) : Prop :=
  forall x, x < 1024 -> fst t x = fst t' x /\ snd t x = snd t' x.
Definition bounded (t : (N -> N) * (N -> N)) : Prop := forall x, x < 1024 -> fst t x < M32 /\ snd t x < M32.

Lemma hc_sub_ne j d : j < 1024 -> 0 < d < 1024 -> (hc_sub j d =? j) = false.
Proof. intros. unfold hc_sub. lia. Qed.
Lemma hc_g_agree T T' x y : (forall z, z < 1024 -> T z = T' z) -> hc_g T x y = hc_g T' x y.
Proof. intros H. unfold hc_g. rewrite H by (apply N.mod_lt; discriminate). reflexivity. Qed.
(** One table update can be undone. *)
Lemma upd_back T T' U U' j : j < 1024 -> (forall x, x < 1024 -> T x < M32) -> (forall x, x < 1024 -> T' x < M32) ->
  (forall x, x < 1024 -> U x = U' x) ->
  let v T U := hc_add (hc_add (T j) (T (hc_sub j 10))) (hc_g U (T (hc_sub j 3)) (T (hc_sub j 1023))) in
  (forall x, x < 1024 -> hc_upd T j (v T U) x = hc_upd T' j (v T' U') x) -> forall x, x < 1024 -> T x = T' x.
Proof.
  intros Hj B B' EU v E.
  assert (O : forall x, x < 1024 -> (x =? j) = false -> T x = T' x).
  { intros x Hx Hn. specialize (E x Hx). unfold hc_upd in E. rewrite Hn in E. exact E. }
  intros x Hx. destruct (x =? j) eqn:Ex; [|auto]. apply N.eqb_eq in Ex. subst x.
  specialize (E j Hj). unfold hc_upd in E. rewrite N.eqb_refl in E. unfold v in E.
  rewrite <- !(O (hc_sub j _)) in E by (first [apply hc_sub_lt | apply hc_sub_ne; lia]).
  rewrite (hc_g_agree U U') in E by assumption.
  specialize (B j Hj). specialize (B' j Hj). unfold hc_add in E. revert E. generalize (T (hc_sub j 10)).
  generalize (hc_g U' (T (hc_sub j 3)) (T (hc_sub j 1023))). intros g a E. change (2 ^ 32) with M32 in E.
  clear - E B B'. lia.
Qed.
Lemma step_back i t t' : bounded t -> bounded t' -> agree (snd (hc_step i t)) (snd (hc_step i t')) -> agree t t'.
Proof.
  intros B B' E. destruct t as [P Q], t' as [P' Q']. unfold agree, bounded, hc_step in *.
  assert (Hj : i mod 1024 < 1024) by (apply N.mod_lt; discriminate).
  destruct (i mod 2048 <? 1024); cbn [fst snd] in *; intros x Hx.
  - assert (EQ : forall x, x < 1024 -> Q x = Q' x) by (intros; apply E; assumption).
    split; [|auto]. apply (upd_back P P' Q Q' (i mod 1024) Hj); try assumption.
    + intros; apply B; assumption. + intros; apply B'; assumption. + intros; apply E; assumption.
  - assert (EP : forall x, x < 1024 -> P x = P' x) by (intros; apply E; assumption).
    split; [auto|]. apply (upd_back Q Q' P P' (i mod 1024) Hj); try assumption.
    + intros; apply B; assumption. + intros; apply B'; assumption. + intros; apply E; assumption.
Qed.
Lemma bounded_step i t : bounded t -> bounded (snd (hc_step i t)).
Proof.
  intros B. destruct t as [P Q]. unfold bounded, hc_step in *.
  destruct (i mod 2048 <? 1024); cbn [fst snd] in *; intros x Hx; destruct (B x Hx) as [B1 B2];
    (split; [|assumption]) || (split; [assumption|]); unfold hc_upd;
    (destruct (x =? i mod 1024); [apply hc_add_lt|assumption]).
Qed.
Lemma bounded_run n t : bounded t -> bounded (hc_run t n).
Proof. intros B. induction n as [|n IH]; [exact B|]. cbn [hc_run]. apply bounded_step, IH. Qed.
Lemma run_back n t t' : bounded t -> bounded t' -> agree (hc_run t n) (hc_run t' n) -> agree t t'.
Proof.
  intros B B'. induction n as [|n IH]; [auto|]. cbn [hc_run]. intros E. apply IH.
  apply (step_back (N.of_nat n)); [apply bounded_run; assumption|apply bounded_run; assumption|exact E].
Qed.
(** The state determines the tables. *)
Lemma hrel_agree s t i t' i' : hrel s t i -> hrel s t' i' -> agree t t'.
Proof.
  intros ((_ & _ & P) & (_ & _ & Q) & _) ((_ & _ & P') & (_ & _ & Q') & _) x Hx.
  rewrite <- P, <- P', <- Q, <- Q' by assumption. auto.
Qed.
Lemma hrel_bounded s t i : hrel s t i -> bounded t.
Proof. intros (P & Q & _) x Hx. split; [apply (tab_lt _ _ _ P Hx)|apply (tab_lt _ _ _ Q Hx)]. Qed.

(** ** C55 *)
(** Two valid states with the same successor are the same state. *)
Theorem C55_step ck usz s t w w' u : usize usz -> hvalid s -> hvalid t ->
  gen_word ck usz s = Ok (w, u) -> gen_word ck usz t = Ok (w', u) -> s = t.
Proof.
  intros Hu Hs Ht Es Et.
  destruct (gen_word_ok ck usz s _ _ Hu (hvalid_rel s Hs)) as (s' & Es' & Rs).
  destruct (gen_word_ok ck usz t _ _ Hu (hvalid_rel t Ht)) as (t' & Et' & Rt).
  rewrite Es' in Es. apply (f_equal (fun r => match r with Ok p => snd p | Panic => s' end)) in Es. cbn [snd] in Es. subst s'.
  rewrite Et' in Et. apply (f_equal (fun r => match r with Ok p => snd p | Panic => t' end)) in Et. cbn [snd] in Et. subst t'.
  assert (I : h_idx s = h_idx t).
  { destruct Rs as (_ & _ & I). destruct Rt as (_ & _ & I'). destruct Hs as (_ & _ & L). destruct Ht as (_ & _ & L'). lia. }
  rewrite I in Rs. assert (A := hrel_agree _ _ _ _ _ Rs Rt). rewrite <- I in A at 2.
  assert (Bs := hrel_bounded _ _ _ (hvalid_rel s Hs)). assert (Bt := hrel_bounded _ _ _ (hvalid_rel t Ht)).
  rewrite I in A. assert (G := step_back (h_idx t) _ _ Bs Bt A). unfold agree in G. cbn [fst snd] in G.
  destruct Hs as ((Lp & _) & (Lq & _) & _). destruct Ht as ((Lp' & _) & (Lq' & _) & _).
  destruct s as [p q i], t as [p' q' i']. cbn [h_p h_q h_idx] in *. subst i'. f_equal.
  - apply (nth_ext _ _ 0 0); [congruence|]. intros k Hk. destruct (G (N.of_nat k) ltac:(lia)) as [E _]. rewrite Nat2N.id in E. exact E.
  - apply (nth_ext _ _ 0 0); [congruence|]. intros k Hk. destruct (G (N.of_nat k) ltac:(lia)) as [_ E]. rewrite Nat2N.id in E. exact E.
Qed.

Section Keys.
  Variables key iv key' iv' : list N.
  Hypothesis Lk : length key = 32%nat. Hypothesis Bk : bytes key.
  Hypothesis Li : length iv = 32%nat. Hypothesis Bi : bytes iv.
  Hypothesis Lk' : length key' = 32%nat. Hypothesis Bk' : bytes key'.
  Hypothesis Li' : length iv' = 32%nat. Hypothesis Bi' : bytes iv'.
  Lemma W_back n : (forall k, (n <= k < n + 16)%nat -> hc_W key iv k = hc_W key' iv' k) ->
    forall k, (k < n + 16)%nat -> hc_W key iv k = hc_W key' iv' k.
  Proof.
    induction n as [|n IH]; intros H; [intros k Hk; apply H; lia|].
    intros k Hk. destruct (Nat.eq_dec k (n + 16)) as [->|Ne]; [apply H; lia|].
    apply IH; [|lia]. intros m Hm. destruct (Nat.eq_dec m n) as [->|Ne']; [|apply H; lia].
    assert (R := W_rec key iv Lk Bk Li Bi n). assert (R' := W_rec key' iv' Lk' Bk' Li' Bi' n).
    assert (B := W_lt key iv Lk Bk Li Bi n). assert (B' := W_lt key' iv' Lk' Bk' Li' Bi' n).
    rewrite (H (n + 16)%nat), R', (H (n + 14)%nat), (H (n + 9)%nat), (H (n + 1)%nat) in R by lia.
    revert R. generalize (hc_f2 (hc_W key' iv' (n + 14))) (hc_W key' iv' (n + 9)) (hc_f1 (hc_W key' iv' (n + 1))).
    generalize (N.of_nat n + 16). generalize dependent (hc_W key iv n). generalize dependent (hc_W key' iv' n).
    clear. intros x Hx y Hy c a b d. unfold hc_add. change (2 ^ 32) with M32. lia.
  Qed.
  Lemma W_inj : (forall k, (512 <= k < 528)%nat -> hc_W key iv k = hc_W key' iv' k) -> key = key' /\ iv = iv'.
  Proof.
    intros H. assert (A := W_back 512 H).
    assert (K := words_of_bytes_length 8 key Lk). assert (K' := words_of_bytes_length 8 key' Lk').
    assert (I := words_of_bytes_length 8 iv Li). assert (I' := words_of_bytes_length 8 iv' Li').
    assert (E : words_of_bytes key ++ words_of_bytes iv = words_of_bytes key' ++ words_of_bytes iv').
    { apply (nth_ext _ _ 0 0); rewrite !app_length, K, I, ?K', ?I'; [reflexivity|]. intros k Hk.
      rewrite <- !W_init by first [assumption | lia]. apply A. lia. }
    assert (E1 := f_equal (firstn 8) E). assert (E2 := f_equal (skipn 8) E).
    rewrite !firstn_app, K, K', (firstn_all2 (words_of_bytes key)), (firstn_all2 (words_of_bytes key')) in E1 by lia. cbn [Nat.sub firstn] in E1. rewrite !app_nil_r in E1.
    rewrite !skipn_app, K, K', (skipn_all2 (words_of_bytes key)), (skipn_all2 (words_of_bytes key')) in E2 by lia. cbn [Nat.sub skipn app] in E2.
    split; apply (words_inj 8); assumption.
  Qed.
End Keys.

Lemma init_runs : exists n, forall key iv, hc_init key iv = hc_run (hc_tables key iv) n.
Proof. eexists. intros. unfold hc_init. reflexivity. Qed.

(** After any number of blocks, equal states mean equal keys and IVs. *)
Theorem C55_keys ck usz key iv key' iv' k s s' o o' u : usize usz ->
  octets 32 key -> octets 32 iv -> octets 32 key' -> octets 32 iv' ->
  hc_new ck usz key iv = Ok s -> hc_new ck usz key' iv' = Ok s' ->
  hc_write ck usz k s = Ok (o, u) -> hc_write ck usz k s' = Ok (o', u) -> key = key' /\ iv = iv'.
Proof.
  intros Hu [Lk Bk] [Li Bi] [Lk' Bk'] [Li' Bi'] Es Es' Ew Ew'.
  destruct (hc_new_ok key iv Lk Bk Li Bi ck usz Hu) as (s1 & E1 & R1). rewrite E1 in Es. apply (f_equal (fun r => match r with Ok p => p | Panic => s1 end)) in Es. cbv beta iota in Es. subst s1.
  destruct (hc_new_ok key' iv' Lk' Bk' Li' Bi' ck usz Hu) as (s2 & E2 & R2). rewrite E2 in Es'. apply (f_equal (fun r => match r with Ok p => p | Panic => s2 end)) in Es'. cbv beta iota in Es'. subst s2.
  destruct (hc_write_ok ck usz k (hc_init key iv) Hu 0 s R1) as (u1 & F1 & S1).
  destruct (hc_write_ok ck usz k (hc_init key' iv') Hu 0 s' R2) as (u2 & F2 & S2).
  rewrite F1 in Ew. apply (f_equal (fun r => match r with Ok p => snd p | Panic => u1 end)) in Ew. cbn [snd] in Ew. subst u1.
  rewrite F2 in Ew'. apply (f_equal (fun r => match r with Ok p => snd p | Panic => u2 end)) in Ew'. cbn [snd] in Ew'. subst u2.
  assert (B : forall key iv, length key = 32%nat -> bytes key -> length iv = 32%nat -> bytes iv -> bounded (hc_tables key iv)).
  { intros ? ? A1 A2 A3 A4 x Hx. unfold hc_tables. cbn [fst snd]. split; apply W_lt; assumption. }
  assert (A := hrel_agree _ _ _ _ _ S1 S2). cbn [Nat.add] in A.
  assert (T := B key iv Lk Bk Li Bi). assert (T' := B key' iv' Lk' Bk' Li' Bi'). clear B.
  destruct init_runs as (n & I). rewrite (I key iv), (I key' iv') in A.
  apply run_back in A; [|apply bounded_run; exact T|apply bounded_run; exact T'].
  apply run_back in A; [|exact T|exact T'].
  apply W_inj; try assumption. intros i Hi. destruct (A (N.of_nat (i - 512)) ltac:(lia)) as [G _].
  unfold hc_tables in G. cbn [fst] in G. rewrite Nat2N.id in G. replace (i - 512 + 512)%nat with i in G by lia. exact G.
Qed.

(** The hypotheses can be met: a valid state, and its successor. *)
Example C55_satisfiable : exists s w u, hvalid s /\ gen_word true (2 ^ 64) s = Ok (w, u) /\ s <> u /\ usize (2 ^ 64).
Proof.
  exists {| h_p := repeat 1 1024; h_q := repeat 2 1024; h_idx := 0 |}. do 2 eexists.
  assert (F : forall c n, c < 2 ^ 32 -> Forall (fun w => w < 2 ^ 32) (repeat c n)) by (intros c n Hc; induction n; constructor; assumption).
  split; [|split; [vm_compute; reflexivity|split; [intros E; apply (f_equal h_idx) in E; discriminate E|right; right; reflexivity]]].
  split; [split; [apply repeat_length|apply F; reflexivity]|]. split; [split; [apply repeat_length|apply F; reflexivity]|reflexivity].
Qed.

Print Assumptions C55_step.
Print Assumptions C55_keys.
