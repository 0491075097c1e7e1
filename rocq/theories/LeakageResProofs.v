(** Erasing the traces of [LeakageRes]/[LeakageSimd] gives the model; two-run reasoning
    about the traces. *)
From Verif Require Import Word Res WordLemmas Leakage LeakageRes LeakageSimd Rabbit Rc4 Hc256 Memory MemoryProofs.
From Coq Require Import ZArith Lia ZifyBool ZifyNat ZifyN.

(** ** Erasure *)
Lemma fst_rbind {A B} (m : LR A) (f : A -> LR B) : fst (rbind m f) = bind (fst m) (fun x => fst (f x)).
Proof. unfold rbind, bind. destruct m as [[x|] t]; cbn [fst]; [destruct (f x)|]; reflexivity. Qed.
Lemma bind_ext {A B} (m m' : Res A) (f f' : A -> Res B) : m = m' -> (forall x, f x = f' x) -> bind m f = bind m' f'.
Proof. intros -> H. destruct m' as [x|]; [apply H | reflexivity]. Qed.
Lemma fst_for {A S} (l : list A) (b : A -> S -> LR S) b' s : (forall x s, fst (b x s) = b' x s) -> fst (r_for l b s) = for_ l b' s.
Proof.
  intros H. revert s; induction l as [|x l IH]; intros s; [reflexivity|]. cbn [r_for for_]. rewrite !fst_rbind.
  cbn [leak fst bind]. apply bind_ext; [apply H | exact IH].
Qed.
(** Strip constant accesses; meet the two sides' binds. *)
Ltac ez := repeat (rewrite fst_rbind; cbn [r_get r_upd r_add r_sub r_mul r_idx r_set r_branch r_assert r_load128 r_store r_padd r_element leak pure fst bind rret]).
Ltac mz := apply bind_ext; [try reflexivity | intros ?].

(** Rabbit *)
Lemma r_counter_update_value ck s : fst (r_counter_update ck s) = counter_update ck s.
Proof.
  unfold r_counter_update, counter_update. ez. mz.
  - apply fst_for. intros j [c b]. unfold r_counter_step, counter_step. ez. mz. ez. mz. ez. reflexivity.
  - destruct x. reflexivity.
Qed.
Lemma r_next_state_value ck s : fst (r_next_state ck s) = next_state ck s.
Proof.
  unfold r_next_state, next_state. cbv zeta. ez. mz; [apply r_counter_update_value|]. ez. mz.
  - apply fst_for. intros j g. unfold r_g_step, g_step. ez. mz. ez. mz. reflexivity.
  - unfold r_mix. ez. cbn [N.eqb Pos.eqb]. reflexivity.
Qed.
Lemma r_next_state4_value ck s : fst (r_next_state4 ck s) = next_state4 ck s.
Proof. apply fst_for. intros _ s1. apply r_next_state_value. Qed.
Lemma fst_for_pure {A S} (l : list A) (b : A -> S -> LR S) f s : (forall x s, fst (b x s) = Ok (f x s)) ->
  fst (r_for l b s) = Ok (fold_left (fun s x => f x s) l s).
Proof.
  intros H. revert s; induction l as [|x l IH]; intros s; [reflexivity|]. cbn [r_for fold_left]. ez. rewrite H. cbn [bind]. apply IH.
Qed.
Lemma r_subkey_value key i k : fst (r_subkey key i k) = Ok (upd k i (subkey key i)).
Proof. unfold r_subkey. ez. reflexivity. Qed.
Lemma r_setup_key_value ck key : fst (r_setup_key ck key) = setup_key ck key.
Proof.
  unfold r_setup_key, setup_key. cbv zeta. do 8 (rewrite fst_rbind, r_subkey_value; cbn [bind]).
  cbn [seq map]. cbn [repeat upd]. rewrite fst_rbind.
  rewrite (fst_for_pure _ _ (setup_step [subkey key 0; subkey key 1; subkey key 2; subkey key 3; subkey key 4; subkey key 5; subkey key 6; subkey key 7])).
  2:{ intros j [x c]. unfold r_setup_step, setup_step. ez. destruct (j mod 2 =? 0)%nat; ez; reflexivity. }
  cbn [bind]. change (seq 0 8) with [0; 1; 2; 3; 4; 5; 6; 7]%nat.
  destruct (fold_left _ _ (_, _)) as [x c]. ez. mz; [apply r_next_state4_value|].
  rewrite fst_rbind.
  rewrite (fst_for_pure _ _ (fun j c => upd c j (xor32 (get c j) (get (r_x x0) ((j + 4) mod 8)%nat)))); [reflexivity|].
  intros j c'. ez. reflexivity.
Qed.
Lemma r_setup_iv_value ck iv s : fst (r_setup_iv ck iv s) = setup_iv ck iv s.
Proof.
  unfold r_setup_iv, setup_iv, r_iv_le, r_xor. ez. cbv zeta. cbn [repeat upd get nth]. unfold get at 1 2 3 4. rewrite r_next_state4_value. reflexivity.
Qed.
Lemma r_out_value i l : fst (r_out i l) = Ok (flat_map (fun t => [as_u8 t; as_u8 (N.shiftr t 8)]) l).
Proof. revert i; induction l as [|t l IH]; intros i; [reflexivity|]. cbn [r_out flat_map]. ez. rewrite IH. reflexivity. Qed.
Lemma r_extract_value s : fst (r_extract s) = Ok (extract s).
Proof. unfold r_extract, extract, r_tmp. ez. rewrite r_out_value. reflexivity. Qed.
Lemma r_next_block_value ck s : fst (r_next_block ck s) = next_block ck s.
Proof. unfold r_next_block, next_block. ez. mz; [apply r_next_state_value|]. ez. rewrite r_extract_value. reflexivity. Qed.
Lemma r_rabbit_write_value ck k : forall s, fst (r_rabbit_write ck k s) = rabbit_write ck k s.
Proof.
  induction k as [|k IH]; intros s; [reflexivity|]. cbn [r_rabbit_write rabbit_write]. ez. mz; [apply r_next_block_value|].
  destruct x as [o s1]. ez. mz; [apply IH|]. destruct x. reflexivity.
Qed.
Lemma r_rabbit_new_value ck key iv : fst (r_rabbit_new ck key iv) = rabbit_new ck key iv.
Proof. unfold r_rabbit_new, rabbit_new, r_rabbit_key_only, rabbit_key_only. ez. mz; [apply r_setup_key_value|]. apply r_setup_iv_value. Qed.

(** RC4 *)
Lemma r_swap_value l a b : fst (r_swap l a b) = swap l a b.
Proof. unfold r_swap, swap. ez. mz. ez. mz. ez. mz. reflexivity. Qed.
Lemma r_prga_value s : fst (r_prga s) = prga s.
Proof.
  unfold r_prga, prga, s_i, s_j. cbn [k_state k_i k_j]. ez. mz. cbn [k_state k_i k_j]. ez. mz; [apply r_swap_value|].
  cbn [k_state k_i k_j]. ez. mz. ez. mz. ez. mz. reflexivity.
Qed.
Lemma r_new_from_slice_value key : fst (r_new_from_slice key) = new_from_slice key.
Proof.
  unfold r_new_from_slice, new_from_slice. ez. destruct ((length key <? 1) || (256 <? length key))%nat; [reflexivity|].
  change (forallb (fun i => N.of_nat i <? 256) (seq 0 256)) with true. cbn [assert_ bind]. rewrite fst_rbind. mz.
  - apply fst_for. intros i [st j]. unfold r_ksa_step, ksa_step. ez. mz. ez. mz. ez. mz; [apply r_swap_value|]. reflexivity.
  - destruct x. reflexivity.
Qed.
(** HC-256 *)
Lemma r_g_value t x y : fst (r_g t x y) = g_ t x y.
Proof. unfold r_g, g_. ez. mz. reflexivity. Qed.
Lemma r_h_value ck t x : fst (r_h ck t x) = h_ ck t x.
Proof. unfold r_h, h_. ez. mz. ez. mz. ez. mz. ez. mz. ez. mz. ez. mz. ez. mz. reflexivity. Qed.
Lemma r_gen_word_value ck usz s : fst (r_gen_word ck usz s) = gen_word ck usz s.
Proof.
  unfold r_gen_word, gen_word, g1, g2, h1, h2. ez. cbv zeta. mz. ez. destruct (h_idx s <? 1024); cbn [h_p h_q h_idx].
  - rewrite fst_rbind. unfold r_half. cbv zeta. rewrite fst_rbind, bind_assoc. mz. rewrite fst_rbind, bind_assoc. mz.
    rewrite fst_rbind, bind_assoc. mz. rewrite fst_rbind, bind_assoc. mz. rewrite fst_rbind, bind_assoc, r_g_value. mz.
    rewrite fst_rbind, bind_assoc. mz. rewrite fst_rbind, bind_assoc. mz. rewrite fst_rbind, bind_assoc, r_h_value. mz.
    rewrite fst_rbind, bind_assoc. mz. reflexivity.
  - rewrite fst_rbind. unfold r_half. cbv zeta. rewrite fst_rbind, bind_assoc. mz. rewrite fst_rbind, bind_assoc. mz.
    rewrite fst_rbind, bind_assoc. mz. rewrite fst_rbind, bind_assoc. mz. rewrite fst_rbind, bind_assoc, r_g_value. mz.
    rewrite fst_rbind, bind_assoc. mz. rewrite fst_rbind, bind_assoc. mz. rewrite fst_rbind, bind_assoc, r_h_value. mz.
    rewrite fst_rbind, bind_assoc. mz. reflexivity.
Qed.
Lemma r_hc_write_value ck usz k : forall s, fst (r_hc_write ck usz k s) = hc_write ck usz k s.
Proof.
  induction k as [|k IH]; intros s; [reflexivity|]. cbn [r_hc_write hc_write]. ez. mz; [apply r_gen_word_value|].
  destruct x as [w s1]. ez. mz; [apply IH|]. destruct x. reflexivity.
Qed.
