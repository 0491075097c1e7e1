(** Facts about the position machine of [SpecStream] alone. *)
From Verif Require Import Word WordLemmas SpecStream WrapperProofs.
From Coq Require Import ZArith Lia ZifyBool ZifyNat ZifyN.
Ltac Zify.zify_post_hook ::= Z.div_mod_to_equations.

Lemma seq_map_add k m : forall a, map (fun i => k + i)%nat (seq a m) = seq (k + a) m.
Proof. induction m as [|m IH]; intros a; cbn [seq map]; [reflexivity|]. rewrite IH, Nat.add_succ_r. reflexivity. Qed.
Lemma ks_xor_length ks p d : length (ks_xor ks p d) = length d.
Proof. unfold ks_xor. rewrite map_length, combine_length, ks_range_length. apply Nat.min_id. Qed.

Lemma run_spec_app ks lim strict h1 h2 : forall p,
  run_spec ks lim strict p (h1 ++ h2) =
  match run_spec ks lim strict p h1 with
  | None => None
  | Some (rs, p') => match run_spec ks lim strict p' h2 with
                     | None => None | Some (rs2, p'') => Some (rs ++ rs2, p'') end
  end.
Proof.
  induction h1 as [|o h1 IH]; intros p; cbn [app run_spec].
  - destruct (run_spec ks lim strict p h2) as [[? ?]|]; reflexivity.
  - destruct (step_spec ks lim strict p o) as [[r p1]|]; [|reflexivity]. rewrite IH.
    destruct (run_spec ks lim strict p1 h1) as [[rs p2]|]; [|reflexivity].
    destruct (run_spec ks lim strict p2 h2) as [[rs2 p3]|]; reflexivity.
Qed.
Lemma run_spec_length ks lim strict h : forall p rs p', run_spec ks lim strict p h = Some (rs, p') -> length rs = length h.
Proof.
  induction h as [|o h IH]; intros p rs p' H; cbn [run_spec] in H; [injection H as <- <-; reflexivity|].
  destruct (step_spec ks lim strict p o) as [[r p1]|]; [|discriminate].
  destruct (run_spec ks lim strict p1 h) as [[rs1 p2]|] eqn:E; [|discriminate]. injection H as <- <-.
  cbn [length]. f_equal. eapply IH. exact E.
Qed.

(** The position, read off the calls and their answers. *)
Definition moved (p : N) (o : op) (r : ret) : N :=
  match r with
  | Bytes l => p + N.of_nat (length l)
  | Done => match o with Seek q => q | _ => p end
  | _ => p
  end.
Fixpoint track (p : N) (h : list op) (rs : list ret) : N :=
  match h, rs with o :: h', r :: rs' => track (moved p o r) h' rs' | _, _ => p end.

Lemma moved_spec ks lim strict p o r p' : step_spec ks lim strict p o = Some (r, p') -> moved p o r = p'.
Proof.
  unfold step_spec. intros H.
  destruct o as [d | d m | n | q | t].
  - destruct (match lim with None => true | Some l => granted l p (N.of_nat (length d)) end); injection H as <- <-;
      cbn [moved]; rewrite ?ks_xor_length; reflexivity.
  - destruct (length d =? m)%nat; [|injection H as <- <-; reflexivity].
    destruct (match lim with None => true | Some l => granted l p (N.of_nat (length d)) end); injection H as <- <-;
      cbn [moved]; rewrite ?ks_xor_length; reflexivity.
  - destruct (match lim with None => true | Some l => granted l p (N.of_nat n) end); injection H as <- <-;
      cbn [moved]; rewrite ?ks_range_length; reflexivity.
  - destruct lim as [l|]; [|injection H as <- <-; reflexivity].
    destruct (q / l_bs l <? l_blocks l); [|injection H as <- <-; reflexivity].
    destruct (strict && (l_usable l <? q)); [discriminate|injection H as <- <-; reflexivity].
  - destruct lim as [l|]; [|injection H as <- <-; reflexivity].
    cbv zeta in H.
    match type of H with (if ?b then _ else _) = _ => destruct b end; injection H as <- <-; reflexivity.
Qed.
Lemma track_spec ks lim strict h : forall p rs p', run_spec ks lim strict p h = Some (rs, p') -> track p h rs = p'.
Proof.
  induction h as [|o h IH]; intros p rs p' H; cbn [run_spec] in H; [injection H as <- <-; reflexivity|].
  destruct (step_spec ks lim strict p o) as [[r p1]|] eqn:Es; [|discriminate].
  destruct (run_spec ks lim strict p1 h) as [[rs1 p2]|] eqn:E; [|discriminate]. injection H as <- <-.
  cbn [track]. rewrite (moved_spec _ _ _ _ _ _ _ Es). eapply IH. exact E.
Qed.

(** Ranges concatenate. *)
Lemma ks_xor_app ks p a b : ks_xor ks p (a ++ b) = ks_xor ks p a ++ ks_xor ks (p + N.of_nat (length a)) b.
Proof.
  unfold ks_xor. rewrite app_length, ks_range_app.
  assert (H : forall (x y u v : list N), length x = length u -> combine (x ++ y) (u ++ v) = combine x u ++ combine y v).
  { induction x as [|x0 x IH]; intros y [|u0 u] v E; cbn in E; try discriminate; [reflexivity|]. cbn. f_equal. apply IH. congruence. }
  rewrite H by (rewrite ks_range_length; reflexivity). rewrite map_app. reflexivity.
Qed.
Lemma ks_xor_twice ks p d : ks_xor ks p (ks_xor ks p d) = d.
Proof.
  unfold ks_xor at 1. rewrite ks_xor_length. unfold ks_xor.
  pose proof (ks_range_length ks p (length d)) as H. revert H. generalize (ks_range ks p (length d)) as k.
  induction d as [|x d IH]; intros [|y k] H; cbn in H; try discriminate; [reflexivity|].
  cbn [combine map fst snd]. rewrite IH by congruence. rewrite N.lxor_assoc, N.lxor_nilpotent, N.lxor_0_r. reflexivity.
Qed.
Lemma ks_xor_zeros ks p n : ks_xor ks p (repeat 0 n) = ks_range ks p n.
Proof.
  unfold ks_xor. rewrite repeat_length. pose proof (ks_range_length ks p n) as H. revert H.
  generalize (ks_range ks p n) as k. induction n as [|n IH]; intros [|y k] H; cbn in H; try discriminate; [reflexivity|].
  cbn [repeat combine map fst snd]. rewrite IH by congruence. rewrite N.lxor_0_l. reflexivity.
Qed.

(** A request within the usable part. *)
Definition within (lim : option limits) (p : N) : Prop :=
  match lim with None => True | Some l => 1 < l_blocks l /\ 0 < l_bs l /\ p <= l_usable l end.
Lemma granted_iff l p n : within (Some l) p -> granted l p n = (p + n <=? l_usable l).
Proof.
  intros (H1 & H2 & H). unfold granted. cbv zeta.
  assert (Hlt : p < l_period l).
  { unfold l_period, l_usable in *. nia. }
  rewrite N.mod_small by exact Hlt. destruct (N.leb_spec p (l_usable l)); [reflexivity|lia].
Qed.
Lemma spec_chunks ks lim strict chunks : forall p,
  within lim (p + N.of_nat (length (concat chunks))) ->
  exists outs, run_spec ks lim strict p (map Apply chunks) = Some (map Bytes outs, p + N.of_nat (length (concat chunks)))
  /\ map (@length N) outs = map (@length N) chunks /\ concat outs = ks_xor ks p (concat chunks).
Proof.
  induction chunks as [|d chunks IH]; intros p H; cbn [map concat run_spec].
  - exists []. cbn [length map concat]. change (N.of_nat 0) with 0. rewrite N.add_0_r. auto.
  - cbn [concat] in H. rewrite app_length in H.
    assert (Hg : match lim with None => true | Some l => granted l p (N.of_nat (length d)) end = true).
    { destruct lim as [l|]; [|reflexivity]. rewrite granted_iff.
      - destruct H as (_ & _ & H). apply N.leb_le. lia.
      - destruct H as (? & ? & H). split; [|split]; [assumption..|lia]. }
    destruct (IH (p + N.of_nat (length d))) as (outs & E & El & Ec).
    { destruct lim as [l|]; [|exact I]. destruct H as (? & ? & H). split; [|split]; [assumption..|lia]. }
    cbn [step_spec]. cbv zeta. rewrite Hg, E. exists (ks_xor ks p d :: outs). cbn [map concat].
    split; [|split].
    + f_equal. f_equal. rewrite app_length. lia.
    + rewrite ks_xor_length, El. reflexivity.
    + rewrite Ec, <- ks_xor_app. reflexivity.
Qed.
