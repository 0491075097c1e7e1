(** C60: the Mantin-Shamir bias of RC4's second byte (A Practical Attack on Broadcast RC4,
    FSE 2001, theorem 1) is a fact about this code. *)
From Coq Require Import String.
From Verif Require Import Word Res WordLemmas Hex PropCommon SpecStream SpecRC4 Rc4 Rc4Proofs.
From Coq Require Import ZArith Lia ZifyBool ZifyNat ZifyN Permutation.
Ltac Zify.zify_post_hook ::= Z.div_mod_to_equations.
Local Open Scope string_scope.
Local Open Scope N_scope.
Local Open Scope list_scope.

Lemma second_zero s : kwf s -> k_i s = 0 -> k_j s = 0 -> at_ (k_state s) 2 = 0 -> at_ (k_state s) 1 <> 2 ->
  sbyte s 1 = 0.
Proof.
  intros (Hp & _ & _) Hi Hj H2 H1. destruct s as [l i j]. cbn [k_state k_i k_j] in *. subst i j.
  set (x := at_ l 1) in *. assert (Hx : x < 256) by (apply at_lt; assumption).
  assert (Hl := perm_length l Hp).
  assert (E1 : prga_state {| k_state := l; k_i := 0; k_j := 0 |} = {| k_state := swap_list l 1 x; k_i := 1; k_j := x |}).
  { unfold prga_state. cbn [k_state k_i k_j]. change (add8 0 1) with 1. fold x.
    replace (add8 0 x) with x by (unfold add8; lia). reflexivity. }
  set (l1 := swap_list l 1 x) in *.
  assert (Hl1 : length l1 = 256%nat) by (unfold l1; rewrite swap_list_length; assumption).
  assert (A2 : at_ l1 2 = 0).
  { unfold l1. rewrite at_swap by lia. unfold rc_swap. change (2 =? 1) with false. cbn match.
    destruct (N.eqb_spec 2 x); [congruence|exact H2]. }
  assert (Ax : at_ l1 x = x).
  { unfold l1. rewrite at_swap by lia. unfold rc_swap. destruct (N.eqb_spec x 1) as [E|_].
    - rewrite E at 1. reflexivity.
    - rewrite N.eqb_refl. reflexivity. }
  assert (E2 : prga_state {| k_state := l1; k_i := 1; k_j := x |} = {| k_state := swap_list l1 2 x; k_i := 2; k_j := x |}).
  { unfold prga_state. cbn [k_state k_i k_j]. change (add8 1 1) with 2. rewrite A2.
    replace (add8 x 0) with x by (unfold add8; lia). reflexivity. }
  unfold sbyte, prga_iter. cbn [Nat.iter nat_rect]. rewrite E1, E2. unfold prga_out. cbn [k_state k_i k_j].
  rewrite !(at_swap l1 2 x) by first [assumption | lia | apply add8_lt]. unfold rc_swap.
  change (2 =? 2) with true. cbn match. rewrite N.eqb_refl. rewrite Ax, A2.
  destruct (N.eqb_spec x 2) as [E|_]; [congruence|].
  replace (add8 x 0) with x by (unfold add8; lia).
  destruct (N.eqb_spec x 2) as [E|_]; [congruence|]. rewrite N.eqb_refl. reflexivity.
Qed.

(** For every accepted key: if the key schedule leaves 0 at place 2 and not 2 at place 1,
    the second keystream byte is 0: byte two of any message is sent in clear. *)
Theorem C60_second_byte key s : new_from_slice key = Ok (Some s) ->
  nth 2 (k_state s) 0 = 0 -> nth 1 (k_state s) 0 <> 2 ->
  (exists s' b, rc4_write s 2 = Ok ([b; 0], s'))
  /\ forall x y d, y < 256 -> exists x' d' s', rc4_apply s (x :: y :: d) = Ok (x' :: y :: d', s').
Proof.
  intros E H2 H1.
  assert (Hk : (1 <= length key <= 256)%nat).
  { destruct (Nat.le_gt_cases 1 (length key)); [|rewrite new_err in E by lia; discriminate].
    destruct (Nat.le_gt_cases (length key) 256); [lia|rewrite new_err in E by lia; discriminate]. }
  destruct (new_ok key Hk) as (s0 & E0 & Hwf & Hr). assert (s0 = s) by congruence. subst s0.
  unfold krep, rc_init in Hr. destruct Hr as (Hi & Hj & _).
  assert (Z := second_zero s Hwf Hi Hj H2 H1). split.
  - rewrite rc4_write_ok by exact Hwf. cbn [seq map]. rewrite Z. eauto.
  - intros x y d Hy. rewrite rc4_apply_ok by exact Hwf. cbn [length seq map xorb_list]. rewrite Z.
    rewrite N.lxor_0_r. eauto.
Qed.
Print Assumptions C60_second_byte.

Example C60_satisfiable : exists s, new_from_slice [0; 253] = Ok (Some s)
  /\ nth 2 (k_state s) 0 = 0 /\ nth 1 (k_state s) 0 <> 2.
Proof. eexists. split; [vm_compute; reflexivity|]. split; [reflexivity|discriminate]. Qed.
