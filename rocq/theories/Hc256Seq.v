(** HC-256: the two tables of the specification as two unbounded sequences. *)
From Verif Require Import Word WordLemmas SpecHC256 Hc256Proofs.
From Coq Require Import ZArith Lia ZifyBool ZifyNat ZifyN.
Ltac Zify.zify_post_hook ::= Z.div_mod_to_equations.

(** ** The tables as two unbounded sequences *)
Lemma hc_step_mod m i t : m mod 2048 = 0 -> hc_step (m + i) t = hc_step i t.
Proof.
  intros Hm. unfold hc_step. replace ((m + i) mod 1024) with (i mod 1024) by lia.
  replace ((m + i) mod 2048) with (i mod 2048) by lia. reflexivity.
Qed.
Lemma hc_run_add t m n : N.of_nat m mod 2048 = 0 -> hc_run (hc_run t m) n = hc_run t (m + n).
Proof.
  intros Hm. induction n as [|n IH]; [rewrite Nat.add_0_r; reflexivity|]. rewrite Nat.add_succ_r.
  cbn [hc_run]. rewrite IH, Nat2N.inj_add, hc_step_mod by exact Hm. reflexivity.
Qed.

Section Sequences.
  Context (t : (N -> N) * (N -> N)).
  (** Table P (resp. Q) after [n] steps. *)
  Let PT (n : N) := fst (hc_run t (N.to_nat n)).
  Let QT (n : N) := snd (hc_run t (N.to_nat n)).
  Lemma run_succ n : hc_run t (N.to_nat (n + 1)) = snd (hc_step n (hc_run t (N.to_nat n))).
  Proof. replace (N.to_nat (n + 1)) with (S (N.to_nat n)) by lia. cbn [hc_run]. rewrite N2Nat.id. reflexivity. Qed.
  (** Entry [m >= 1024]: the value written to slot [m mod 1024] in round [m / 1024]. *)
  Definition pseq (m : N) : N :=
    if m <? 1024 then fst t m else PT (2048 * (m / 1024 - 1) + m mod 1024 + 1) (m mod 1024).
  Definition qseq (m : N) : N :=
    if m <? 1024 then snd t m else QT (2048 * (m / 1024 - 1) + 1024 + m mod 1024 + 1) (m mod 1024).
  Lemma PT_seq x n : x < 1024 -> PT n x = pseq (1024 * ((n + 2047 - x) / 2048) + x).
  Proof.
    intros Hx. induction n as [|n IH] using N.peano_ind.
    - replace ((0 + 2047 - x) / 2048) with 0 by lia. unfold pseq. destruct (_ <? 1024) eqn:E; [|lia]. reflexivity.
    - rewrite <- N.add_1_r.
      destruct (N.eq_dec (n mod 2048) x) as [E|E].
      + unfold pseq. destruct (_ <? 1024) eqn:E1; [lia|].
        replace (2048 * ((1024 * ((n + 1 + 2047 - x) / 2048) + x) / 1024 - 1) + (1024 * ((n + 1 + 2047 - x) / 2048) + x) mod 1024 + 1) with (n + 1) by lia.
        f_equal. lia.
      + replace ((n + 1 + 2047 - x) / 2048) with ((n + 2047 - x) / 2048) by lia. rewrite <- IH.
        unfold PT. rewrite run_succ. destruct (hc_run t (N.to_nat n)) as [P Q]. unfold hc_step.
        destruct (n mod 2048 <? 1024) eqn:E1; [|reflexivity]. cbn [snd fst]. unfold hc_upd.
        destruct (N.eqb_spec x (n mod 1024)) as [E2|_]; [lia|reflexivity].
  Qed.
  Lemma QT_seq x n : x < 1024 -> QT n x = qseq (1024 * ((n + 1023 - x) / 2048) + x).
  Proof.
    intros Hx. induction n as [|n IH] using N.peano_ind.
    - replace ((0 + 1023 - x) / 2048) with 0 by lia. unfold qseq. destruct (_ <? 1024) eqn:E; [|lia]. reflexivity.
    - rewrite <- N.add_1_r.
      destruct (N.eq_dec (n mod 2048) (1024 + x)) as [E|E].
      + unfold qseq. destruct (_ <? 1024) eqn:E1; [lia|].
        replace (2048 * ((1024 * ((n + 1 + 1023 - x) / 2048) + x) / 1024 - 1) + 1024 + (1024 * ((n + 1 + 1023 - x) / 2048) + x) mod 1024 + 1) with (n + 1) by lia.
        f_equal. lia.
      + replace ((n + 1 + 1023 - x) / 2048) with ((n + 1023 - x) / 2048) by lia. rewrite <- IH.
        unfold QT. rewrite run_succ. destruct (hc_run t (N.to_nat n)) as [P Q]. unfold hc_step.
        destruct (n mod 2048 <? 1024) eqn:E1; [reflexivity|]. cbn [snd fst]. unfold hc_upd.
        destruct (N.eqb_spec x (n mod 1024)) as [E2|_]; [lia|reflexivity].
  Qed.
  Lemma hc_g_ext T T' x y : (forall k, k < 1024 -> T k = T' k) -> hc_g T x y = hc_g T' x y.
  Proof. intros E. unfold hc_g. rewrite E by (apply N.mod_lt; discriminate). reflexivity. Qed.
  Lemma hc_h_ext T T' x : (forall k, k < 1024 -> T k = T' k) -> hc_h T x = hc_h T' x.
  Proof.
    intros E. unfold hc_h. pose proof (hc_byte_lt x 0). pose proof (hc_byte_lt x 1). pose proof (hc_byte_lt x 2). pose proof (hc_byte_lt x 3).
    rewrite !E by lia. reflexivity.
  Qed.

  (** Step [2048 b + j] (P-step [n = 1024 b + j]). *)
  Lemma p_step b j : j < 1024 ->
    let n := 1024 * b + j in let i := 2048 * b + j in
    pseq (n + 1024) = hc_add (hc_add (pseq n) (pseq (n + 1014)))
                        (hc_g (fun x => qseq (1024 * b + x)) (pseq (n + 1021)) (pseq (n + 1)))
    /\ fst (hc_step i (hc_run t (N.to_nat i))) = N.lxor (hc_h (fun x => qseq (1024 * b + x)) (pseq (n + 1012))) (pseq (n + 1024)).
  Proof.
    intros Hj n i.
    assert (EP : forall x m, x < 1024 -> 1024 * ((i + 2047 - x) / 2048) + x = m -> fst (hc_run t (N.to_nat i)) x = pseq m).
    { intros x m Hx <-. exact (PT_seq x i Hx). }
    assert (EQ : forall x, x < 1024 -> snd (hc_run t (N.to_nat i)) x = qseq (1024 * b + x)).
    { intros x Hx. etransitivity; [exact (QT_seq x i Hx)|]. f_equal. f_equal. unfold i. lia. }
    assert (E12 : snd (hc_step i (hc_run t (N.to_nat i))) = hc_run t (N.to_nat (i + 1))) by (symmetry; apply run_succ).
    assert (E1024 : pseq (n + 1024) = fst (hc_run t (N.to_nat (i + 1))) j).
    { change (fst (hc_run t (N.to_nat (i + 1))) j) with (PT (i + 1) j). rewrite (PT_seq j (i + 1) Hj). f_equal. unfold n, i. lia. }
    rewrite <- E12 in E1024. clear E12.
    destruct (hc_run t (N.to_nat i)) as [P Q]. cbn [fst snd] in EP, EQ. unfold hc_step in *.
    replace (i mod 1024) with j in * by (unfold i; lia).
    destruct (i mod 2048 <? 1024) eqn:E; [|unfold i in E; lia]. cbn [fst snd] in *.
    unfold hc_upd at 1 in E1024. rewrite N.eqb_refl in E1024.
    unfold hc_upd. rewrite N.eqb_refl. rewrite <- E1024.
    assert (E12 : hc_sub j 12 =? j = false) by (unfold hc_sub; lia). rewrite E12.
    split.
    - rewrite E1024. rewrite (EP j n) by (unfold n, i; lia).
      rewrite (EP (hc_sub j 10) (n + 1014)) by (unfold hc_sub, n, i; lia).
      rewrite (EP (hc_sub j 3) (n + 1021)) by (unfold hc_sub, n, i; lia).
      rewrite (EP (hc_sub j 1023) (n + 1)) by (unfold hc_sub, n, i; lia).
      rewrite (hc_g_ext Q (fun x => qseq (1024 * b + x)) _ _ EQ). reflexivity.
    - rewrite (EP (hc_sub j 12) (n + 1012)) by (unfold hc_sub, n, i; lia).
      rewrite (hc_h_ext Q (fun x => qseq (1024 * b + x)) _ EQ). reflexivity.
  Qed.
  (** Step [2048 b + 1024 + j] (Q-step [n = 1024 b + j]). *)
  Lemma q_step b j : j < 1024 ->
    let n := 1024 * b + j in let i := 2048 * b + 1024 + j in
    qseq (n + 1024) = hc_add (hc_add (qseq n) (qseq (n + 1014)))
                        (hc_g (fun x => pseq (1024 * (b + 1) + x)) (qseq (n + 1021)) (qseq (n + 1)))
    /\ fst (hc_step i (hc_run t (N.to_nat i))) = N.lxor (hc_h (fun x => pseq (1024 * (b + 1) + x)) (qseq (n + 1012))) (qseq (n + 1024)).
  Proof.
    intros Hj n i.
    assert (EQ : forall x m, x < 1024 -> 1024 * ((i + 1023 - x) / 2048) + x = m -> snd (hc_run t (N.to_nat i)) x = qseq m).
    { intros x m Hx <-. exact (QT_seq x i Hx). }
    assert (EP : forall x, x < 1024 -> fst (hc_run t (N.to_nat i)) x = pseq (1024 * (b + 1) + x)).
    { intros x Hx. etransitivity; [exact (PT_seq x i Hx)|]. f_equal. f_equal. unfold i. lia. }
    assert (E12 : snd (hc_step i (hc_run t (N.to_nat i))) = hc_run t (N.to_nat (i + 1))) by (symmetry; apply run_succ).
    assert (E1024 : qseq (n + 1024) = snd (hc_run t (N.to_nat (i + 1))) j).
    { change (snd (hc_run t (N.to_nat (i + 1))) j) with (QT (i + 1) j). rewrite (QT_seq j (i + 1) Hj). f_equal. unfold n, i. lia. }
    rewrite <- E12 in E1024. clear E12.
    destruct (hc_run t (N.to_nat i)) as [P Q]. cbn [fst snd] in EP, EQ. unfold hc_step in *.
    replace (i mod 1024) with j in * by (unfold i; lia).
    destruct (i mod 2048 <? 1024) eqn:E; [unfold i in E; lia|]. cbn [fst snd] in *.
    unfold hc_upd at 1 in E1024. rewrite N.eqb_refl in E1024.
    unfold hc_upd. rewrite N.eqb_refl. rewrite <- E1024.
    assert (E12 : hc_sub j 12 =? j = false) by (unfold hc_sub; lia). rewrite E12.
    split.
    - rewrite E1024. rewrite (EQ j n) by (unfold n, i; lia).
      rewrite (EQ (hc_sub j 10) (n + 1014)) by (unfold hc_sub, n, i; lia).
      rewrite (EQ (hc_sub j 3) (n + 1021)) by (unfold hc_sub, n, i; lia).
      rewrite (EQ (hc_sub j 1023) (n + 1)) by (unfold hc_sub, n, i; lia).
      rewrite (hc_g_ext P (fun x => pseq (1024 * (b + 1) + x)) _ _ EP). reflexivity.
    - rewrite (EQ (hc_sub j 12) (n + 1012)) by (unfold hc_sub, n, i; lia).
      rewrite (hc_h_ext P (fun x => pseq (1024 * (b + 1) + x)) _ EP). reflexivity.
  Qed.
End Sequences.
