(** Final theorems C42-C47 (RC4). *)
From Coq Require Import String.
From Verif Require Import Word Res WordLemmas Hex PropCommon SpecStream SpecRC4 Rc4 Rc4Proofs RabbitProofs.
From Coq Require Import ZArith Lia ZifyBool ZifyNat ZifyN Permutation.
Ltac Zify.zify_post_hook ::= Z.div_mod_to_equations.
Local Open Scope string_scope.
Local Open Scope N_scope.
Local Open Scope list_scope.

(** Concrete runs of the model: [n] keystream bytes under [key]. *)
Definition ex_rc4 (key : list N) (n : nat) : option (list N) :=
  match new_from_slice key with
  | Ok (Some s) => match rc4_write s n with Ok (o, _) => Some o | Panic => None end
  | _ => None
  end.

(** ** C42 *)
Theorem C42_rc4 key n : (1 <= length key <= 256)%nat ->
  exists s s', new_from_slice key = Ok (Some s)
  /\ rc4_write s n = Ok (map (rc_byte key) (seq 0 n), s').
Proof.
  intros Hk. destruct (new_ok key Hk) as (s & E & Hwf & Hr). exists s, (prga_iter n s). split; [exact E|].
  rewrite rc4_write_ok by exact Hwf. do 2 f_equal. apply map_ext. intros i. apply sbyte_spec; assumption.
Qed.
Print Assumptions C42_rc4.
(** RFC 6229, keys of 5 and 16 bytes, offset 0 (the specification and the model). *)
Example C42_satisfiable : (1 <= length (hex "0102030405") <= 256)%nat
  /\ map (rc_byte (hex "0102030405")) (seq 0 16) = hex "b2396305f03dc027ccc3524a0a1118a8"
  /\ ex_rc4 (hex "0102030405") 32 = Some (hex "b2396305f03dc027ccc3524a0a1118a86982944f18fc82d589c403a47a0d0919")
  /\ ex_rc4 (hex "0102030405060708090a0b0c0d0e0f10") 16 = Some (hex "9ac7cc9a609d1ef7b2932899cde41b97").
Proof. split; [cbn; lia|]. checks. Qed.

(** ** C43 *)
(** States a program can reach from an accepted key by any calls. *)
Inductive reachable (key : list N) : rc4 -> Prop :=
| reach_new s : new_from_slice key = Ok (Some s) -> reachable key s
| reach_step s o r s' : reachable key s -> rc4_step s o = Ok (r, s') -> reachable key s'.
Lemma reachable_iter key s : reachable key s ->
  exists s0 n, new_from_slice key = Ok (Some s0) /\ kwf s0 /\ krep s0 (rc_init key) /\ s = prga_iter n s0.
Proof.
  induction 1 as [s E | s o r s' Hs (s0 & n & E0 & Hwf & Hr & ->) E].
  - destruct (Nat.le_gt_cases 1 (length key)) as [H1|H1]; [destruct (Nat.le_gt_cases (length key) 256) as [H2|H2]|].
    + destruct (new_ok key (conj H1 H2)) as (s0 & E0 & Hwf & Hr). exists s0, 0%nat.
      split; [exact E0|]. split; [exact Hwf|]. split; [exact Hr|]. rewrite E0 in E. injection E as <-. reflexivity.
    + rewrite new_err in E by lia. discriminate.
    + rewrite new_err in E by lia. discriminate.
  - destruct (rc4_step_ok s0 (N.of_nat n) o Hwf) as (r' & P' & _ & E2). rewrite Nat2N.id in E2.
    rewrite E2 in E. injection E as _ <-. exists s0, (N.to_nat P'). auto.
Qed.
Theorem C43_permutation key s : reachable key s ->
  Permutation (k_state s) (map N.of_nat (seq 0 256)) /\ k_i s < 256 /\ k_j s < 256.
Proof.
  intros H. destruct (reachable_iter key s H) as (s0 & n & _ & Hwf & _ & ->). apply (prga_iter_wf n s0 Hwf).
Qed.
Print Assumptions C43_permutation.
Theorem C43_no_panic key : new_from_slice key <> Panic
  /\ forall s, reachable key s -> forall h, exists rs s', rc4_run s h = Ok (rs, s') /\ reachable key s'.
Proof.
  split.
  - destruct (Nat.le_gt_cases 1 (length key)) as [H1|H1]; [destruct (Nat.le_gt_cases (length key) 256) as [H2|H2]|].
    + destruct (new_ok key (conj H1 H2)) as (s0 & E0 & _ & _). rewrite E0. discriminate.
    + rewrite new_err by lia. discriminate.
    + rewrite new_err by lia. discriminate.
  - intros s Hs h. revert s Hs. induction h as [|o h IH]; intros s Hs.
    + exists [], s. auto.
    + destruct (reachable_iter key s Hs) as (s0 & n & _ & Hwf & _ & Es).
      destruct (rc4_step_ok s0 (N.of_nat n) o Hwf) as (r & P' & _ & E2). rewrite Nat2N.id, <- Es in E2.
      destruct (IH _ (reach_step key s o r _ Hs E2)) as (rs & s' & E3 & Hs').
      exists (r :: rs), s'. cbn [rc4_run]. rewrite E2. cbn [bind]. rewrite E3. auto.
Qed.
Print Assumptions C43_no_panic.
Definition ex_s0 : rc4 :=
  match new_from_slice (hex "0102030405") with Ok (Some s) => s | _ => Build_rc4 [] 0 0 end.
Definition ex_s7 : rc4 := match rc4_step ex_s0 (Write 7) with Ok (_, s) => s | Panic => ex_s0 end.
Example C43_satisfiable : reachable (hex "0102030405") ex_s7 /\ k_i ex_s7 = 7 /\ k_j ex_s7 = 164.
Proof.
  split; [|vm_compute; auto]. apply (reach_step _ ex_s0 (Write 7) (Bytes (hex "b2396305f03dc0"))).
  - apply reach_new. vm_compute. reflexivity.
  - vm_compute. reflexivity.
Qed.

(** ** C44 *)
Theorem C44_lengths key :
  (new_from_slice key = Ok None <-> (length key = 0 \/ 256 < length key)%nat)
  /\ ((1 <= length key <= 256)%nat <-> exists s, new_from_slice key = Ok (Some s)).
Proof.
  assert (HE : (1 <= length key <= 256)%nat -> exists s, new_from_slice key = Ok (Some s)).
  { intros H. destruct (new_ok key H) as (s & E & _). eauto. }
  split; split.
  - intros E. destruct (Nat.le_gt_cases 1 (length key)) as [H1|H1]; [|lia].
    destruct (Nat.le_gt_cases (length key) 256) as [H2|H2]; [|lia].
    destruct (HE (conj H1 H2)) as [s E']. congruence.
  - apply new_err.
  - exact HE.
  - intros [s E]. destruct (Nat.le_gt_cases 1 (length key)) as [H1|H1]; [|rewrite new_err in E by lia; discriminate].
    destruct (Nat.le_gt_cases (length key) 256) as [H2|H2]; [|rewrite new_err in E by lia; discriminate]. lia.
Qed.
Print Assumptions C44_lengths.
Theorem C44_new key : length key = 32%nat -> exists s, rc4_new key = Ok s /\ new_from_slice key = Ok (Some s).
Proof.
  intros H. destruct (new_ok key ltac:(lia)) as (s & E & _). exists s. unfold rc4_new. rewrite E. auto.
Qed.
Print Assumptions C44_new.
Example C44_satisfiable : new_from_slice [] = Ok None /\ new_from_slice (repeat 1 257) = Ok None
  /\ (exists s, new_from_slice [7] = Ok (Some s)) /\ (exists s, new_from_slice (repeat 1 256) = Ok (Some s)).
Proof. split; [reflexivity|]. split; [reflexivity|]. split; apply C44_lengths; rewrite ?repeat_length; cbn [length]; lia. Qed.

(** ** C45 *)
Lemma ksa_cyclic k1 k2 : (0 < length k1)%nat -> (0 < length k2)%nat ->
  (forall i, (i < 256)%nat -> nth (i mod length k1) k1 0 = nth (i mod length k2) k2 0) ->
  for_ (seq 0 256) (ksa_step k1) (id256, 0) = for_ (seq 0 256) (ksa_step k2) (id256, 0).
Proof.
  intros H1 H2 E. assert (Hn : forall n, (n <= 256)%nat ->
    for_ (seq 0 n) (ksa_step k1) (id256, 0) = for_ (seq 0 n) (ksa_step k2) (id256, 0)); [|exact (Hn 256%nat (le_n _))].
  induction n as [|n IH]; intros Hn; [reflexivity|]. rewrite seq_S, !for_app, <- IH by lia.
  destruct (ksa_ok k1 n H1 ltac:(lia)) as (l & j & El & Hp & _). rewrite El. cbn [bind for_ Nat.add].
  rewrite !ksa_step_ok by (try assumption; lia). rewrite E by lia. reflexivity.
Qed.
Theorem C45_cyclic k1 k2 :
  (1 <= length k1 <= 256)%nat -> (1 <= length k2 <= 256)%nat ->
  (forall i, (i < 256)%nat -> nth (i mod length k1) k1 0 = nth (i mod length k2) k2 0) ->
  new_from_slice k1 = new_from_slice k2.
Proof.
  intros H1 H2 E. unfold new_from_slice. rewrite (proj2 (len_check k1) H1), (proj2 (len_check k2) H2).
  fold id256. rewrite (ksa_cyclic k1 k2 ltac:(lia) ltac:(lia) E). reflexivity.
Qed.
Print Assumptions C45_cyclic.
Lemma nth_concat_repeat (k : list N) m : forall i, (0 < length k)%nat -> (i < m * length k)%nat ->
  nth i (concat (repeat k m)) 0 = nth (i mod length k) k 0.
Proof.
  induction m as [|m IH]; intros i Hk Hi; [lia|]. cbn [repeat concat].
  destruct (Nat.lt_ge_cases i (length k)) as [H|H].
  - rewrite app_nth1 by exact H. rewrite Nat.mod_small by exact H. reflexivity.
  - rewrite app_nth2 by exact H. rewrite IH by lia. f_equal.
    replace i with ((i - length k) + 1 * length k)%nat at 2 by lia. rewrite Nat.mod_add by lia. reflexivity.
Qed.
Lemma concat_repeat_length (k : list N) m : length (concat (repeat k m)) = (m * length k)%nat.
Proof. induction m as [|m IH]; [reflexivity|]. cbn [repeat concat]. rewrite app_length, IH. lia. Qed.
Theorem C45_repetition k m : (1 <= m)%nat -> (1 <= length k)%nat -> (m * length k <= 256)%nat ->
  new_from_slice (concat (repeat k m)) = new_from_slice k.
Proof.
  intros Hm Hk Hl. apply C45_cyclic.
  - rewrite concat_repeat_length. nia.
  - nia.
  - intros i Hi. rewrite concat_repeat_length.
    rewrite nth_concat_repeat by (try apply Nat.mod_upper_bound; nia). f_equal.
    rewrite (Nat.mul_comm m). rewrite Nat.mod_mul_r by nia.
    rewrite (Nat.mul_comm (length k)), Nat.mod_add by lia. apply Nat.mod_mod. lia.
Qed.
Print Assumptions C45_repetition.
Example C45_satisfiable : (5 * length (hex "0102030405") <= 256)%nat
  /\ ex_rc4 (hex "01020304050102030405010203040501020304050102030405") 16 = Some (hex "b2396305f03dc027ccc3524a0a1118a8")
  /\ ex_rc4 (hex "010203040501") 16 <> Some (hex "b2396305f03dc027ccc3524a0a1118a8").
Proof. split; [cbn; lia|]. checks. Qed.

(** ** C46 *)
(** A state of the type: a permutation with two byte indices. *)
Definition valid (s : rc4) : Prop :=
  Permutation (k_state s) (map N.of_nat (seq 0 256)) /\ k_i s < 256 /\ k_j s < 256.
(** [prga] is a bijection on valid states. *)
Theorem C46_bijection :
  (forall s, valid s -> exists o s', prga s = Ok (o, s') /\ valid s')
  /\ (forall s1 s2 o1 o2 s', valid s1 -> valid s2 -> prga s1 = Ok (o1, s') -> prga s2 = Ok (o2, s') -> s1 = s2)
  /\ (forall s', valid s' -> exists s o, valid s /\ prga s = Ok (o, s')).
Proof.
  split; [|split].
  - intros s H. do 2 eexists. split; [apply prga_ok, H | apply prga_wf, H].
  - intros s1 s2 o1 o2 s' H1 H2 E1 E2. rewrite prga_ok in E1 by exact H1. rewrite prga_ok in E2 by exact H2.
    injection E1 as _ E1. injection E2 as _ E2. rewrite <- (back_forth s1 H1), <- (back_forth s2 H2). congruence.
  - intros s' H. exists (prga_back s'). eexists. split; [apply back_wf, H|]. rewrite prga_ok by apply back_wf, H.
    rewrite forth_back by exact H. reflexivity.
Qed.
Print Assumptions C46_bijection.
(** Finney's states (j = i+1 and S[j] = 1, modulo 256) are never reached. *)
Theorem C46_no_finney key s : reachable key s ->
  ~ (k_j s = (k_i s + 1) mod 256 /\ nth (N.to_nat (k_j s)) (k_state s) 0 = 1).
Proof.
  intros H. destruct (reachable_iter key s H) as (s0 & n & E & Hwf & Hr & ->).
  apply (not_finney n s0 Hwf). intros [F _]. destruct Hr as (Ei & Ej & _). rewrite Ei, Ej in F. discriminate.
Qed.
Print Assumptions C46_no_finney.
(** Such states exist among the valid ones: *)
Example C46_satisfiable : exists s, valid s /\ (k_j s = (k_i s + 1) mod 256 /\ nth (N.to_nat (k_j s)) (k_state s) 0 = 1).
Proof.
  exists {| k_state := map N.of_nat (seq 0 256); k_i := 0; k_j := 1 |}. split; [|split; reflexivity].
  split; [apply Permutation_refl|]. cbn [k_i k_j]. lia.
Qed.

(** ** C47 *)
(** Any history of calls on a fresh cipher is answered by a position in the RC4 keystream. *)
Theorem C47_history key h : (1 <= length key <= 256)%nat ->
  exists s rs p s', new_from_slice key = Ok (Some s)
  /\ run_spec (fun j => rc_byte key (N.to_nat j)) None false 0 h = Some (rs, p) /\ rc4_run s h = Ok (rs, s').
Proof.
  intros Hk. destruct (new_ok key Hk) as (s & E & Hwf & Hr).
  destruct (rc4_run_ok s h Hwf 0) as (rs & p & E1 & E2). exists s, rs, p. eexists. split; [exact E|]. split; [|exact E2].
  rewrite <- E1. apply run_spec_ext. intros j. symmetry. apply sbyte_spec; assumption.
Qed.
Print Assumptions C47_history.
(** [apply_keystream] chunk by chunk. *)
Fixpoint rc4_apply_chunks (s : rc4) (l : list (list N)) : Res (list (list N) * rc4) :=
  match l with
  | [] => Ok ([], s)
  | d :: l' => do (o, s1) <- rc4_apply s d; do (os, s2) <- rc4_apply_chunks s1 l'; Ok (o :: os, s2)
  end.
Lemma xorb_app a b c d : length a = length c -> xorb_list (a ++ b) (c ++ d) = xorb_list a c ++ xorb_list b d.
Proof. revert c. induction a as [|x a IH]; intros [|y c] H; try discriminate; [reflexivity|]. cbn. f_equal. apply IH. injection H. auto. Qed.
Lemma rc4_chunks_ok s l : kwf s ->
  exists os s', rc4_apply_chunks s l = Ok (os, s') /\ s' = prga_iter (length (concat l)) s
  /\ concat os = xorb_list (concat l) (map (sbyte s) (seq 0 (length (concat l)))).
Proof.
  revert s. induction l as [|d l IH]; intros s H; cbn [rc4_apply_chunks concat].
  - exists [], s. auto.
  - rewrite rc4_apply_ok by exact H. cbn [bind].
    destruct (IH (prga_iter (length d) s) (prga_iter_wf _ _ H)) as (os & s' & E & Es & Eo). rewrite E. cbn [bind].
    do 2 eexists. split; [reflexivity|]. rewrite app_length. split; [rewrite Es, prga_iter_add; f_equal; lia|].
    cbn [concat]. rewrite Eo, seq_app, map_app, xorb_app by (rewrite map_length, seq_length; reflexivity). f_equal. f_equal.
    cbn [Nat.add]. replace (seq (length d) (length (concat l))) with (map (fun i => (length d + i)%nat) (seq 0 (length (concat l)))).
    + rewrite map_map. apply map_ext. intros i. apply sbyte_iter.
    + generalize (length (concat l)) as m. induction m as [|m IHm]; [reflexivity|]. rewrite !seq_S, map_app, IHm. reflexivity.
Qed.
Theorem C47_chunking key l : (1 <= length key <= 256)%nat ->
  exists s os s', new_from_slice key = Ok (Some s) /\ rc4_apply_chunks s l = Ok (os, s')
  /\ concat os = map (fun x => N.lxor (fst x) (snd x)) (combine (concat l) (map (rc_byte key) (seq 0 (length (concat l)))))
  /\ rc4_apply s (concat l) = Ok (concat os, s').
Proof.
  intros Hk. destruct (new_ok key Hk) as (s & E & Hwf & Hr). destruct (rc4_chunks_ok s l Hwf) as (os & s' & E1 & Es & Eo).
  exists s, os, s'. split; [exact E|]. split; [exact E1|]. split.
  - rewrite Eo, xorb_combine. do 2 f_equal. apply map_ext. intros i. apply sbyte_spec; assumption.
  - rewrite rc4_apply_ok by exact Hwf. rewrite Eo, Es. reflexivity.
Qed.
Print Assumptions C47_chunking.
Lemma xorb_xorb d k : length k = length d -> xorb_list (xorb_list d k) k = d.
Proof.
  revert k. induction d as [|b d IH]; intros [|c k] H; try discriminate; [reflexivity|]. cbn [xorb_list].
  rewrite IH by (injection H; auto). rewrite N.lxor_assoc, N.lxor_nilpotent, N.lxor_0_r. reflexivity.
Qed.
(** Applied twice from equal (reachable) states it is the identity. *)
Theorem C47_involution key s d : reachable key s ->
  exists e s', rc4_apply s d = Ok (e, s') /\ rc4_apply s e = Ok (d, s').
Proof.
  intros H. destruct (reachable_iter key s H) as (s0 & n & E & Hwf0 & _ & ->). pose proof (prga_iter_wf n s0 Hwf0) as Hwf.
  set (s := prga_iter n s0) in *. do 2 eexists. split; [apply rc4_apply_ok, Hwf|].
  assert (Hl : length (xorb_list d (map (sbyte s) (seq 0 (length d)))) = length d).
  { rewrite xorb_combine, map_length, combine_length, map_length, seq_length. lia. }
  rewrite rc4_apply_ok by exact Hwf. rewrite Hl, xorb_xorb by (rewrite map_length, seq_length; reflexivity). reflexivity.
Qed.
Print Assumptions C47_involution.
Example C47_satisfiable : exists s os s', new_from_slice (hex "4b6579") = Ok (Some s)
  /\ rc4_apply_chunks s [hex "506c"; []; hex "61696e746578"; hex "74"] = Ok (os, s')
  /\ concat os = hex "BBF316E8D940AF0AD3".
Proof.
  destruct (C47_chunking (hex "4b6579") [hex "506c"; []; hex "61696e746578"; hex "74"] ltac:(cbn; lia)) as (s & os & s' & E & E1 & E2 & _).
  exists s, os, s'. split; [exact E|]. split; [exact E1|]. rewrite E2. vm_compute. reflexivity.
Qed.
