(** The text of [new] in [hc-256/src/lib.rs:60-109], run: expansion of key and nonce, warm-up. *)
From Coq Require Import String Lia.
From Verif Require Import WordLemmas RustLemmas RustMeth RustRc4 Hc256 Hc256Proofs RustHc256 RustHc256b RustHc256c.
Local Open Scope string_scope.
Local Open Scope N_scope.
Local Open Scope list_scope.
Ltac rs_norm t ::=
  eval cbv -[run_fn loop for_body inb geti updi in_range part splice numbers N.of_nat N.to_nat w_ltb w_sum w_diff w_prod List.repeat List.length Nat.eqb
             add32 sub32 add64 xor32 rotl32 rotr32 w_add w_sub w_mul w_and w_or w_xor w_shl w_shr w_div w_mod w_trunc w_fits le_byte from_le N.pow] in t.
Definition hc_wf (s : hc) : Prop := length (h_p s) = 1024%nat /\ length (h_q s) = 1024%nat /\ h_idx s < 2048.
Lemma set_idx_len l i v l' : set_idx l i v = Ok l' -> length l' = length l.
Proof. rewrite set_idx_inb. destruct (inb i l); [|discriminate]. intros E. injection E as <-. unfold updi. apply upd_len. Qed.
Lemma gen_word_wf ck m s w s' : hc_wf s -> gen_word ck m s = Ok (w, s') -> hc_wf s'.
Proof.
  intros (Lp & Lq & Li). unfold gen_word. cbv zeta. cbn [h_p h_q h_idx].
  assert (H : forall x, N.land x (2048 - 1) < 2048) by (intros x; rewrite land_2047; apply N.mod_lt; discriminate).
  destruct (add_ck ck M32 (h_idx s) 1) as [nx|]; [cbn [bind]|discriminate].
  destruct (h_idx s <? 1024).
  all: repeat match goal with |- (bind ?m _) = _ -> _ => destruct m as [?x|] eqn:?E; [cbn [bind]|discriminate] end.
  all: intros E'; injection E' as _ <-; split; [|split]; cbn [h_p h_q h_idx]; auto.
  all: match goal with E : set_idx _ _ _ = Ok _ |- _ => rewrite (set_idx_len _ _ _ _ E); assumption end.
Qed.
Lemma numbers_seq a n : numbers (N.of_nat a) (N.of_nat (a + n)) = map N.of_nat (seq a n).
Proof.
  unfold numbers. replace (N.to_nat (N.of_nat (a + n) - N.of_nat a)) with n by lia. rewrite Nat2N.id. reflexivity.
Qed.
Lemma for_tag (f : nat -> list N -> Res (list N)) : forall l t d, l <> [] ->
  for_ l (fun j (q : ity * list N) => do x <- f j (snd q); Ok (U32, x)) (t, d) = do x <- for_ l f d; Ok (U32, x).
Proof.
  induction l as [|j l IH]; intros t d H; [contradiction|]. cbn [for_ snd]. destruct (f j d) as [x|]; [|reflexivity]. cbn [bind].
  destruct l as [|j' l]; [reflexivity|]. apply IH. discriminate.
Qed.
Lemma le_word_lt l i : length l = 32%nat -> i < 8 -> exists w, le_word l i = Ok w.
Proof.
  intros L H. unfold le_word. assert (B : forall k, k < 32 -> inb k l = true) by (intros k Hk; unfold inb; rewrite L; apply N.ltb_lt; exact Hk).
  rewrite !idx_inb, !B by lia. eexists. reflexivity.
Qed.
Definition loop_env (out : val) (key iv : list N) (q : ity * list N) : env := [("data", VArr (fst q) (snd q)); ("out", out); ("key", VArr U8 key); ("iv", VArr U8 iv)].
Definition expand_range : list nat := seq 16 2644.
Definition warm_range : list nat := seq 0 4096.
Definition loop32 (out : val) (key iv l : list N) : env := [("data", VArr U32 l); ("out", out); ("key", VArr U8 key); ("iv", VArr U8 iv)].
Definition warm_env (data key iv : list N) (s : hc) : env := [("data", VArr U32 data); ("out", hc_val s); ("key", VArr U8 key); ("iv", VArr U8 iv)].
Lemma for_inv {A} (P : A -> Prop) (f : nat -> A -> Res A) : (forall j a a', P a -> f j a = Ok a' -> P a') ->
  forall l a a', P a -> for_ l f a = Ok a' -> P a'.
Proof.
  intros H. induction l as [|j l IH]; intros a a' Ha; cbn [for_].
  - intros E. injection E as <-. exact Ha.
  - destruct (f j a) as [b|] eqn:E; [cbn [bind]|discriminate]. apply IH. exact (H j a b Ha E).
Qed.
Lemma word_len l i : forall j (d0 d1 : list N), length d0 = 2660%nat -> (do w <- le_word l (N.of_nat j); set_idx d0 (N.of_nat j + i) w) = Ok d1 -> length d1 = 2660%nat.
Proof.
  intros j d0 d1 L. destruct (le_word l (N.of_nat j)) as [w|]; [cbn [bind]|discriminate]. intros E. rewrite (set_idx_len _ _ _ _ E). exact L.
Qed.
Lemma word_len0 l : forall j (d0 d1 : list N), length d0 = 2660%nat -> (do w <- le_word l (N.of_nat j); set_idx d0 (N.of_nat j) w) = Ok d1 -> length d1 = 2660%nat.
Proof.
  intros j d0 d1 L. destruct (le_word l (N.of_nat j)) as [w|]; [cbn [bind]|discriminate]. intros E. rewrite (set_idx_len _ _ _ _ E). exact L.
Qed.
Lemma expand_len ck m : forall j (d0 d1 : list N), length d0 = 2660%nat -> expand_step ck m j d0 = Ok d1 -> length d1 = 2660%nat.
Proof.
  intros j d0 d1 L. unfold expand_step. cbv zeta.
  repeat match goal with |- (bind ?m _) = _ -> _ => destruct m as [?x|]; [cbn [bind]|discriminate] end. intros E. rewrite (set_idx_len _ _ _ _ E). exact L.
Qed.
Lemma part_len l s n : (N.to_nat s + N.to_nat n <= length l)%nat -> length (part l s n) = N.to_nat n.
Proof. intros H. unfold part, slice. rewrite firstn_length, skipn_length. lia. Qed.
Lemma splice_all l l' : length l' = 1024%nat -> length l = 1024%nat -> splice l 0 1024 l' = l'.
Proof. intros H' H. unfold splice. change (N.to_nat 0) with 0%nat. cbn [firstn app Nat.add]. rewrite skipn_all2 by (rewrite H; lia). apply app_nil_r. Qed.
Lemma src_hc_new : forall ck usz d key iv, In usz pointer_widths -> length key = 32%nat -> length iv = 32%nat ->
  run_fn (hc256_g ck usz) hc256_prog (S (S (S d))) "Hc256Core::new" [VArr U8 key; VArr U8 iv] =
  match hc_new ck (2 ^ usz) key iv with Ok s => XOk (hc_val s, [VArr U8 key; VArr U8 iv]) | Panic => XPanic end.
Proof.
  intros ck usz d key iv U Lk Li. rs_enter.
  pose proof (fun x => src_f1 ck usz (S d) x U) as HF1. pose proof (fun x => src_f2 ck usz (S d) x U) as HF2.
  pose proof (fun s => src_gen_word ck usz d s U) as HG. revert HF1 HF2 HG. 
  generalize (run_fn (hc256_g ck usz) hc256_prog (S (S d))) as cf. intros cf HF1 HF2 HG.
  rs_body. unfold hc_new. cbv zeta. change (repeat 0 (N.to_nat INIT_SIZE)) with (repeat 0 (N.to_nat 2660)). change (N.to_nat KEY_WORDS) with 8%nat. change (N.to_nat IV_WORDS) with 8%nat. fold expand_range warm_range.
  assert (L0 : length (repeat 0 (N.to_nat 2660)) = 2660%nat) by apply repeat_length.
  pose proof U as U'. destruct U' as [<-|[<-|[<-|[]]]].
  - rs_stmt. rs_stmt. rs_stmt. rs_stmt. rs_for.
    match goal with |- context [("out", ?o)] => set (out := o) end.
    replace (numbers 0 8) with (map N.of_nat (seq 0 8)) by (symmetry; exact (numbers_seq 0 8)). rewrite map_map.
    match goal with |- context [loop _ _ ?r] => change r with (loop_env out key iv (Any, repeat 0 (N.to_nat 2660))) end.
    rewrite (flat_for _ _ _ (loop_env out key iv) (fun i q => do d <- (do w <- le_word key (N.of_nat i); set_idx (snd q) (N.of_nat i) w); Ok (U32, d)) (fun q => (fst q = Any \/ fst q = U32) /\ length (snd q) = 2660%nat)).
    2: { split; [left; reflexivity|exact L0]. }
    2: { intros j [t0 d0] [t1 d1] [_ L] _. cbn [fst snd] in *. pose proof (word_len0 key j d0) as E. destruct (do w <- le_word key (N.of_nat j); set_idx d0 (N.of_nat j) w) as [x|]; [cbn [bind]|discriminate].
         intros H. injection H as <- <-. split; [right; reflexivity|exact (E x L eq_refl)]. }
    2: { intros j [t0 d0] [Ht L] I. cbn [fst snd] in *. apply in_seq in I. unfold loop_env at 1. cbn [fst snd].
         refine (eq_trans (src_key_body ck _ cf t0 d0 out key (VArr U8 iv) (N.of_nat j) U Lk ltac:(lia) L Ht) _).
         destruct (do w <- le_word key (N.of_nat j); set_idx d0 (N.of_nat j) w) as [x|]; reflexivity. }
    rewrite (for_tag (fun i data => do w <- le_word key (N.of_nat i); set_idx data (N.of_nat i) w)) by discriminate.
    pose proof (for_inv (fun q : list N => length q = 2660%nat) _ (word_len0 key) (seq 0 8) (repeat 0 (N.to_nat 2660))) as H1.
    destruct (for_ (seq 0 8) (fun i data => do w <- le_word key (N.of_nat i); set_idx data (N.of_nat i) w) (repeat 0 (N.to_nat 2660))) as [d1|]; [cbn [bind]|reflexivity].
    specialize (H1 d1 L0 eq_refl). clear L0. rs_flow.
    unfold loop_env. cbn [fst snd]. rs_for.
    replace (numbers 0 8) with (map N.of_nat (seq 0 8)) by (symmetry; exact (numbers_seq 0 8)). rewrite map_map.
    match goal with |- context [loop _ _ ?r] => change r with (loop32 out key iv d1) end.
    rewrite (flat_for _ _ _ (loop32 out key iv) (fun i data => do w <- le_word iv (N.of_nat i); set_idx data (N.of_nat i + KEY_WORDS) w) (fun q => length q = 2660%nat)).
    2: exact H1.
    2: { intros j d0 d2 L _. exact (word_len iv KEY_WORDS j d0 d2 L). }
    2: { intros j d0 L I. apply in_seq in I. exact (src_iv_body ck _ cf d0 out (VArr U8 key) iv (N.of_nat j) U Li ltac:(lia) L). }
    pose proof (for_inv (fun q : list N => length q = 2660%nat) _ (word_len iv KEY_WORDS) (seq 0 8) d1) as H2.
    destruct (for_ (seq 0 8) (fun i data => do w <- le_word iv (N.of_nat i); set_idx data (N.of_nat i + KEY_WORDS) w) d1) as [d2|]; [cbn [bind]|reflexivity].
    specialize (H2 d2 H1 eq_refl). clear H1. rs_flow.
    unfold loop32. rewrite execs_cons, exec_expr, eval_for; rewrite ?flat_assoc.
    match goal with |- context [eval ?g ?p ?c ?o (ERng ?a ?b) ?r] => rs_eval (eval g p c o (ERng a b) r) end.
    match goal with |- context [w_add ck ?m 8 8] => replace (w_add ck m 8 8) with (@Ok N 16) by (destruct ck; reflexivity) end.
    rs_flow. rs_items.
    match goal with |- context [numbers ?a ?b] => replace (numbers a b) with (map N.of_nat expand_range) by (symmetry; exact (numbers_seq 16 2644)) end. rewrite map_map.
    match goal with |- context [loop _ _ ?r] => change r with (loop32 out key iv d2) end.
    match goal with |- context [expand_step ck ?m] => 
    rewrite (flat_for _ _ _ (loop32 out key iv) (expand_step ck m) (fun q => length q = 2660%nat));
      [pose proof (for_inv (fun q : list N => length q = 2660%nat) _ (expand_len ck m) expand_range d2) as H3
      |exact H2
      |intros j d0 d3 L _; exact (expand_len ck m j d0 d3 L)
      |intros j d0 L I; apply in_seq in I; exact (src_expand_body ck _ cf d0 out (VArr U8 key) (VArr U8 iv) j U ltac:(lia) L HF1 HF2)] end.
    destruct (for_ expand_range _ d2) as [d3|]; [cbn [bind]|reflexivity].
    specialize (H3 d3 H2 eq_refl). clear H2. rs_flow. unfold loop32. unfold out. clear out.
    assert (P1 : length (part d3 512 1024) = 1024%nat) by (rewrite part_len; [reflexivity|rewrite H3; lia]).
    assert (P2 : length (part d3 1536 1024) = 1024%nat) by (rewrite part_len; [reflexivity|rewrite H3; lia]).
    assert (R0 : length (repeat 0 (N.to_nat 1024)) = 1024%nat) by (rewrite repeat_length; reflexivity).
    assert (R1 : length (part (repeat 0 (N.to_nat 1024)) 0 1024) = 1024%nat) by (rewrite part_len; [reflexivity|rewrite R0; reflexivity]).
    assert (G1 : in_range 512 1024 d3 = true) by (unfold in_range; rewrite H3; reflexivity).
    assert (G2 : in_range 1536 1024 d3 = true) by (unfold in_range; rewrite H3; reflexivity).
    assert (G0 : in_range 0 1024 (repeat 0 (N.to_nat 1024)) = true) by (unfold in_range; rewrite R0; reflexivity).
    rs_stmt.
    match goal with |- context [w_add ck ?m 1024 512] => replace (w_add ck m 1024 512) with (@Ok N 1536) by (destruct ck; reflexivity) end.
    rs_again. rewrite G1, G0, R1, P1. change (1024 =? 1024)%nat with true. rs_flow. rewrite splice_all by assumption.
    assert (M1 : slice_ck d3 512 1024 = Ok (part d3 512 1024)).
    { unfold slice_ck. replace (512 + 1024 <=? length d3)%nat with true by (rewrite H3; reflexivity). reflexivity. }
    assert (M2 : slice_ck d3 1536 1024 = Ok (part d3 1536 1024)).
    { unfold slice_ck. replace (1536 + 1024 <=? length d3)%nat with true by (rewrite H3; reflexivity). reflexivity. }
    rewrite M1, M2. cbn [bind]. clear M1 M2. revert P1. generalize (part d3 512 1024). intros tp P1.
    rs_stmt.
    match goal with |- context [w_add ck ?m 1024 1536] => replace (w_add ck m 1024 1536) with (@Ok N 2560) by (destruct ck; reflexivity) end.
    rs_again. rewrite G2, G0, R1, P2. change (1024 =? 1024)%nat with true. rs_flow. rewrite splice_all by assumption.
    revert P2. generalize (part d3 1536 1024). intros tq P2. clear G0 G1 G2 R0 R1.
    rs_stmt. rs_for.
    match goal with |- context [numbers ?a ?b] => replace (numbers a b) with (map N.of_nat warm_range) by (symmetry; exact (numbers_seq 0 4096)) end. rewrite map_map.
    match goal with |- context [loop _ _ ?r] => change r with (warm_env d3 key iv {| h_p := tp; h_q := tq; h_idx := 0 |}) end.
    match goal with |- context [gen_word ck ?m] => 
    rewrite (flat_for _ _ _ (warm_env d3 key iv) (fun _ s => do (_, s) <- gen_word ck m s; Ok s) hc_wf) end.
    2: { split; [exact P1|split; [exact P2|reflexivity]]. }
    2: { intros j s0 s1 W _. match goal with |- context [gen_word ck ?m s0] => pose proof (gen_word_wf ck m s0) as G; destruct (gen_word ck m s0) as [[w s2]|]; [cbn [bind]|discriminate] end.
         intros E. injection E as <-. exact (G _ _ W eq_refl). }
    2: { intros j [p0 q0 i0] (Wp & Wq & Wi) _. pose proof (HG _ Wp Wq Wi) as G. unfold for_body, warm_env. unfold hc_val in *. cbn [h_p h_q h_idx] in *.
         match goal with |- context [bind_pat ?a ?b ?c] => rs_eval (bind_pat a b c) end. rs_flow. rewrite eval_blk. rs_flow. rewrite execs_cons, exec_expr. rs_again. rewrite G.
         match goal with |- context [gen_word ck ?m ?s0] => destruct (gen_word ck m s0) as [[w [p1 q1 i1]]|]; [cbn [bind]|reflexivity] end. cbn [h_p h_q h_idx].
         rs_again. rewrite execs_nil. rs_lhs. reflexivity. }
    match goal with |- context [for_ warm_range ?f ?a] => destruct (for_ warm_range f a) as [s9|]; [|reflexivity] end.
    rs_flow. rewrite execs_nil. unfold warm_env, hc_val. rs_lhs. reflexivity.
  - rs_stmt. rs_stmt. rs_stmt. rs_stmt. rs_for.
    match goal with |- context [("out", ?o)] => set (out := o) end.
    replace (numbers 0 8) with (map N.of_nat (seq 0 8)) by (symmetry; exact (numbers_seq 0 8)). rewrite map_map.
    match goal with |- context [loop _ _ ?r] => change r with (loop_env out key iv (Any, repeat 0 (N.to_nat 2660))) end.
    rewrite (flat_for _ _ _ (loop_env out key iv) (fun i q => do d <- (do w <- le_word key (N.of_nat i); set_idx (snd q) (N.of_nat i) w); Ok (U32, d)) (fun q => (fst q = Any \/ fst q = U32) /\ length (snd q) = 2660%nat)).
    2: { split; [left; reflexivity|exact L0]. }
    2: { intros j [t0 d0] [t1 d1] [_ L] _. cbn [fst snd] in *. pose proof (word_len0 key j d0) as E. destruct (do w <- le_word key (N.of_nat j); set_idx d0 (N.of_nat j) w) as [x|]; [cbn [bind]|discriminate].
         intros H. injection H as <- <-. split; [right; reflexivity|exact (E x L eq_refl)]. }
    2: { intros j [t0 d0] [Ht L] I. cbn [fst snd] in *. apply in_seq in I. unfold loop_env at 1. cbn [fst snd].
         refine (eq_trans (src_key_body ck _ cf t0 d0 out key (VArr U8 iv) (N.of_nat j) U Lk ltac:(lia) L Ht) _).
         destruct (do w <- le_word key (N.of_nat j); set_idx d0 (N.of_nat j) w) as [x|]; reflexivity. }
    rewrite (for_tag (fun i data => do w <- le_word key (N.of_nat i); set_idx data (N.of_nat i) w)) by discriminate.
    pose proof (for_inv (fun q : list N => length q = 2660%nat) _ (word_len0 key) (seq 0 8) (repeat 0 (N.to_nat 2660))) as H1.
    destruct (for_ (seq 0 8) (fun i data => do w <- le_word key (N.of_nat i); set_idx data (N.of_nat i) w) (repeat 0 (N.to_nat 2660))) as [d1|]; [cbn [bind]|reflexivity].
    specialize (H1 d1 L0 eq_refl). clear L0. rs_flow.
    unfold loop_env. cbn [fst snd]. rs_for.
    replace (numbers 0 8) with (map N.of_nat (seq 0 8)) by (symmetry; exact (numbers_seq 0 8)). rewrite map_map.
    match goal with |- context [loop _ _ ?r] => change r with (loop32 out key iv d1) end.
    rewrite (flat_for _ _ _ (loop32 out key iv) (fun i data => do w <- le_word iv (N.of_nat i); set_idx data (N.of_nat i + KEY_WORDS) w) (fun q => length q = 2660%nat)).
    2: exact H1.
    2: { intros j d0 d2 L _. exact (word_len iv KEY_WORDS j d0 d2 L). }
    2: { intros j d0 L I. apply in_seq in I. exact (src_iv_body ck _ cf d0 out (VArr U8 key) iv (N.of_nat j) U Li ltac:(lia) L). }
    pose proof (for_inv (fun q : list N => length q = 2660%nat) _ (word_len iv KEY_WORDS) (seq 0 8) d1) as H2.
    destruct (for_ (seq 0 8) (fun i data => do w <- le_word iv (N.of_nat i); set_idx data (N.of_nat i + KEY_WORDS) w) d1) as [d2|]; [cbn [bind]|reflexivity].
    specialize (H2 d2 H1 eq_refl). clear H1. rs_flow.
    unfold loop32. rewrite execs_cons, exec_expr, eval_for; rewrite ?flat_assoc.
    match goal with |- context [eval ?g ?p ?c ?o (ERng ?a ?b) ?r] => rs_eval (eval g p c o (ERng a b) r) end.
    match goal with |- context [w_add ck ?m 8 8] => replace (w_add ck m 8 8) with (@Ok N 16) by (destruct ck; reflexivity) end.
    rs_flow. rs_items.
    match goal with |- context [numbers ?a ?b] => replace (numbers a b) with (map N.of_nat expand_range) by (symmetry; exact (numbers_seq 16 2644)) end. rewrite map_map.
    match goal with |- context [loop _ _ ?r] => change r with (loop32 out key iv d2) end.
    match goal with |- context [expand_step ck ?m] => 
    rewrite (flat_for _ _ _ (loop32 out key iv) (expand_step ck m) (fun q => length q = 2660%nat));
      [pose proof (for_inv (fun q : list N => length q = 2660%nat) _ (expand_len ck m) expand_range d2) as H3
      |exact H2
      |intros j d0 d3 L _; exact (expand_len ck m j d0 d3 L)
      |intros j d0 L I; apply in_seq in I; exact (src_expand_body ck _ cf d0 out (VArr U8 key) (VArr U8 iv) j U ltac:(lia) L HF1 HF2)] end.
    destruct (for_ expand_range _ d2) as [d3|]; [cbn [bind]|reflexivity].
    specialize (H3 d3 H2 eq_refl). clear H2. rs_flow. unfold loop32. unfold out. clear out.
    assert (P1 : length (part d3 512 1024) = 1024%nat) by (rewrite part_len; [reflexivity|rewrite H3; lia]).
    assert (P2 : length (part d3 1536 1024) = 1024%nat) by (rewrite part_len; [reflexivity|rewrite H3; lia]).
    assert (R0 : length (repeat 0 (N.to_nat 1024)) = 1024%nat) by (rewrite repeat_length; reflexivity).
    assert (R1 : length (part (repeat 0 (N.to_nat 1024)) 0 1024) = 1024%nat) by (rewrite part_len; [reflexivity|rewrite R0; reflexivity]).
    assert (G1 : in_range 512 1024 d3 = true) by (unfold in_range; rewrite H3; reflexivity).
    assert (G2 : in_range 1536 1024 d3 = true) by (unfold in_range; rewrite H3; reflexivity).
    assert (G0 : in_range 0 1024 (repeat 0 (N.to_nat 1024)) = true) by (unfold in_range; rewrite R0; reflexivity).
    rs_stmt.
    match goal with |- context [w_add ck ?m 1024 512] => replace (w_add ck m 1024 512) with (@Ok N 1536) by (destruct ck; reflexivity) end.
    rs_again. rewrite G1, G0, R1, P1. change (1024 =? 1024)%nat with true. rs_flow. rewrite splice_all by assumption.
    assert (M1 : slice_ck d3 512 1024 = Ok (part d3 512 1024)).
    { unfold slice_ck. replace (512 + 1024 <=? length d3)%nat with true by (rewrite H3; reflexivity). reflexivity. }
    assert (M2 : slice_ck d3 1536 1024 = Ok (part d3 1536 1024)).
    { unfold slice_ck. replace (1536 + 1024 <=? length d3)%nat with true by (rewrite H3; reflexivity). reflexivity. }
    rewrite M1, M2. cbn [bind]. clear M1 M2. revert P1. generalize (part d3 512 1024). intros tp P1.
    rs_stmt.
    match goal with |- context [w_add ck ?m 1024 1536] => replace (w_add ck m 1024 1536) with (@Ok N 2560) by (destruct ck; reflexivity) end.
    rs_again. rewrite G2, G0, R1, P2. change (1024 =? 1024)%nat with true. rs_flow. rewrite splice_all by assumption.
    revert P2. generalize (part d3 1536 1024). intros tq P2. clear G0 G1 G2 R0 R1.
    rs_stmt. rs_for.
    match goal with |- context [numbers ?a ?b] => replace (numbers a b) with (map N.of_nat warm_range) by (symmetry; exact (numbers_seq 0 4096)) end. rewrite map_map.
    match goal with |- context [loop _ _ ?r] => change r with (warm_env d3 key iv {| h_p := tp; h_q := tq; h_idx := 0 |}) end.
    match goal with |- context [gen_word ck ?m] => 
    rewrite (flat_for _ _ _ (warm_env d3 key iv) (fun _ s => do (_, s) <- gen_word ck m s; Ok s) hc_wf) end.
    2: { split; [exact P1|split; [exact P2|reflexivity]]. }
    2: { intros j s0 s1 W _. match goal with |- context [gen_word ck ?m s0] => pose proof (gen_word_wf ck m s0) as G; destruct (gen_word ck m s0) as [[w s2]|]; [cbn [bind]|discriminate] end.
         intros E. injection E as <-. exact (G _ _ W eq_refl). }
    2: { intros j [p0 q0 i0] (Wp & Wq & Wi) _. pose proof (HG _ Wp Wq Wi) as G. unfold for_body, warm_env. unfold hc_val in *. cbn [h_p h_q h_idx] in *.
         match goal with |- context [bind_pat ?a ?b ?c] => rs_eval (bind_pat a b c) end. rs_flow. rewrite eval_blk. rs_flow. rewrite execs_cons, exec_expr. rs_again. rewrite G.
         match goal with |- context [gen_word ck ?m ?s0] => destruct (gen_word ck m s0) as [[w [p1 q1 i1]]|]; [cbn [bind]|reflexivity] end. cbn [h_p h_q h_idx].
         rs_again. rewrite execs_nil. rs_lhs. reflexivity. }
    match goal with |- context [for_ warm_range ?f ?a] => destruct (for_ warm_range f a) as [s9|]; [|reflexivity] end.
    rs_flow. rewrite execs_nil. unfold warm_env, hc_val. rs_lhs. reflexivity.
  - rs_stmt. rs_stmt. rs_stmt. rs_stmt. rs_for.
    match goal with |- context [("out", ?o)] => set (out := o) end.
    replace (numbers 0 8) with (map N.of_nat (seq 0 8)) by (symmetry; exact (numbers_seq 0 8)). rewrite map_map.
    match goal with |- context [loop _ _ ?r] => change r with (loop_env out key iv (Any, repeat 0 (N.to_nat 2660))) end.
    rewrite (flat_for _ _ _ (loop_env out key iv) (fun i q => do d <- (do w <- le_word key (N.of_nat i); set_idx (snd q) (N.of_nat i) w); Ok (U32, d)) (fun q => (fst q = Any \/ fst q = U32) /\ length (snd q) = 2660%nat)).
    2: { split; [left; reflexivity|exact L0]. }
    2: { intros j [t0 d0] [t1 d1] [_ L] _. cbn [fst snd] in *. pose proof (word_len0 key j d0) as E. destruct (do w <- le_word key (N.of_nat j); set_idx d0 (N.of_nat j) w) as [x|]; [cbn [bind]|discriminate].
         intros H. injection H as <- <-. split; [right; reflexivity|exact (E x L eq_refl)]. }
    2: { intros j [t0 d0] [Ht L] I. cbn [fst snd] in *. apply in_seq in I. unfold loop_env at 1. cbn [fst snd].
         refine (eq_trans (src_key_body ck _ cf t0 d0 out key (VArr U8 iv) (N.of_nat j) U Lk ltac:(lia) L Ht) _).
         destruct (do w <- le_word key (N.of_nat j); set_idx d0 (N.of_nat j) w) as [x|]; reflexivity. }
    rewrite (for_tag (fun i data => do w <- le_word key (N.of_nat i); set_idx data (N.of_nat i) w)) by discriminate.
    pose proof (for_inv (fun q : list N => length q = 2660%nat) _ (word_len0 key) (seq 0 8) (repeat 0 (N.to_nat 2660))) as H1.
    destruct (for_ (seq 0 8) (fun i data => do w <- le_word key (N.of_nat i); set_idx data (N.of_nat i) w) (repeat 0 (N.to_nat 2660))) as [d1|]; [cbn [bind]|reflexivity].
    specialize (H1 d1 L0 eq_refl). clear L0. rs_flow.
    unfold loop_env. cbn [fst snd]. rs_for.
    replace (numbers 0 8) with (map N.of_nat (seq 0 8)) by (symmetry; exact (numbers_seq 0 8)). rewrite map_map.
    match goal with |- context [loop _ _ ?r] => change r with (loop32 out key iv d1) end.
    rewrite (flat_for _ _ _ (loop32 out key iv) (fun i data => do w <- le_word iv (N.of_nat i); set_idx data (N.of_nat i + KEY_WORDS) w) (fun q => length q = 2660%nat)).
    2: exact H1.
    2: { intros j d0 d2 L _. exact (word_len iv KEY_WORDS j d0 d2 L). }
    2: { intros j d0 L I. apply in_seq in I. exact (src_iv_body ck _ cf d0 out (VArr U8 key) iv (N.of_nat j) U Li ltac:(lia) L). }
    pose proof (for_inv (fun q : list N => length q = 2660%nat) _ (word_len iv KEY_WORDS) (seq 0 8) d1) as H2.
    destruct (for_ (seq 0 8) (fun i data => do w <- le_word iv (N.of_nat i); set_idx data (N.of_nat i + KEY_WORDS) w) d1) as [d2|]; [cbn [bind]|reflexivity].
    specialize (H2 d2 H1 eq_refl). clear H1. rs_flow.
    unfold loop32. rewrite execs_cons, exec_expr, eval_for; rewrite ?flat_assoc.
    match goal with |- context [eval ?g ?p ?c ?o (ERng ?a ?b) ?r] => rs_eval (eval g p c o (ERng a b) r) end.
    match goal with |- context [w_add ck ?m 8 8] => replace (w_add ck m 8 8) with (@Ok N 16) by (destruct ck; reflexivity) end.
    rs_flow. rs_items.
    match goal with |- context [numbers ?a ?b] => replace (numbers a b) with (map N.of_nat expand_range) by (symmetry; exact (numbers_seq 16 2644)) end. rewrite map_map.
    match goal with |- context [loop _ _ ?r] => change r with (loop32 out key iv d2) end.
    match goal with |- context [expand_step ck ?m] => 
    rewrite (flat_for _ _ _ (loop32 out key iv) (expand_step ck m) (fun q => length q = 2660%nat));
      [pose proof (for_inv (fun q : list N => length q = 2660%nat) _ (expand_len ck m) expand_range d2) as H3
      |exact H2
      |intros j d0 d3 L _; exact (expand_len ck m j d0 d3 L)
      |intros j d0 L I; apply in_seq in I; exact (src_expand_body ck _ cf d0 out (VArr U8 key) (VArr U8 iv) j U ltac:(lia) L HF1 HF2)] end.
    destruct (for_ expand_range _ d2) as [d3|]; [cbn [bind]|reflexivity].
    specialize (H3 d3 H2 eq_refl). clear H2. rs_flow. unfold loop32. unfold out. clear out.
    assert (P1 : length (part d3 512 1024) = 1024%nat) by (rewrite part_len; [reflexivity|rewrite H3; lia]).
    assert (P2 : length (part d3 1536 1024) = 1024%nat) by (rewrite part_len; [reflexivity|rewrite H3; lia]).
    assert (R0 : length (repeat 0 (N.to_nat 1024)) = 1024%nat) by (rewrite repeat_length; reflexivity).
    assert (R1 : length (part (repeat 0 (N.to_nat 1024)) 0 1024) = 1024%nat) by (rewrite part_len; [reflexivity|rewrite R0; reflexivity]).
    assert (G1 : in_range 512 1024 d3 = true) by (unfold in_range; rewrite H3; reflexivity).
    assert (G2 : in_range 1536 1024 d3 = true) by (unfold in_range; rewrite H3; reflexivity).
    assert (G0 : in_range 0 1024 (repeat 0 (N.to_nat 1024)) = true) by (unfold in_range; rewrite R0; reflexivity).
    rs_stmt.
    match goal with |- context [w_add ck ?m 1024 512] => replace (w_add ck m 1024 512) with (@Ok N 1536) by (destruct ck; reflexivity) end.
    rs_again. rewrite G1, G0, R1, P1. change (1024 =? 1024)%nat with true. rs_flow. rewrite splice_all by assumption.
    assert (M1 : slice_ck d3 512 1024 = Ok (part d3 512 1024)).
    { unfold slice_ck. replace (512 + 1024 <=? length d3)%nat with true by (rewrite H3; reflexivity). reflexivity. }
    assert (M2 : slice_ck d3 1536 1024 = Ok (part d3 1536 1024)).
    { unfold slice_ck. replace (1536 + 1024 <=? length d3)%nat with true by (rewrite H3; reflexivity). reflexivity. }
    rewrite M1, M2. cbn [bind]. clear M1 M2. revert P1. generalize (part d3 512 1024). intros tp P1.
    rs_stmt.
    match goal with |- context [w_add ck ?m 1024 1536] => replace (w_add ck m 1024 1536) with (@Ok N 2560) by (destruct ck; reflexivity) end.
    rs_again. rewrite G2, G0, R1, P2. change (1024 =? 1024)%nat with true. rs_flow. rewrite splice_all by assumption.
    revert P2. generalize (part d3 1536 1024). intros tq P2. clear G0 G1 G2 R0 R1.
    rs_stmt. rs_for.
    match goal with |- context [numbers ?a ?b] => replace (numbers a b) with (map N.of_nat warm_range) by (symmetry; exact (numbers_seq 0 4096)) end. rewrite map_map.
    match goal with |- context [loop _ _ ?r] => change r with (warm_env d3 key iv {| h_p := tp; h_q := tq; h_idx := 0 |}) end.
    match goal with |- context [gen_word ck ?m] => 
    rewrite (flat_for _ _ _ (warm_env d3 key iv) (fun _ s => do (_, s) <- gen_word ck m s; Ok s) hc_wf) end.
    2: { split; [exact P1|split; [exact P2|reflexivity]]. }
    2: { intros j s0 s1 W _. match goal with |- context [gen_word ck ?m s0] => pose proof (gen_word_wf ck m s0) as G; destruct (gen_word ck m s0) as [[w s2]|]; [cbn [bind]|discriminate] end.
         intros E. injection E as <-. exact (G _ _ W eq_refl). }
    2: { intros j [p0 q0 i0] (Wp & Wq & Wi) _. pose proof (HG _ Wp Wq Wi) as G. unfold for_body, warm_env. unfold hc_val in *. cbn [h_p h_q h_idx] in *.
         match goal with |- context [bind_pat ?a ?b ?c] => rs_eval (bind_pat a b c) end. rs_flow. rewrite eval_blk. rs_flow. rewrite execs_cons, exec_expr. rs_again. rewrite G.
         match goal with |- context [gen_word ck ?m ?s0] => destruct (gen_word ck m s0) as [[w [p1 q1 i1]]|]; [cbn [bind]|reflexivity] end. cbn [h_p h_q h_idx].
         rs_again. rewrite execs_nil. rs_lhs. reflexivity. }
    match goal with |- context [for_ warm_range ?f ?a] => destruct (for_ warm_range f a) as [s9|]; [|reflexivity] end.
    rs_flow. rewrite execs_nil. unfold warm_env, hc_val. rs_lhs. reflexivity.
Qed.

