(** The text of the ChaCha generators' methods ([RustRngText.v]), run: it computes the functions of [ChaChaRng.v]. *)
From Coq Require Import String Lia.
From Verif Require Import WordLemmas RustLemmas RustMeth RustRngText.
From Verif Require Export RustChaCha2 ChaChaRng.
From Verif Require Import ChaChaProofs ChaChaDispatchProofs.
Local Open Scope string_scope.
Local Open Scope N_scope.
Local Open Scope list_scope.

Ltac rs_norm t ::=
  eval cbv -[run_fn run_rng loop for_body N.of_nat N.to_nat List.map word_offset block_val core_val
             add32 sub32 add64 xor32 rotl32 rotr32 w_add w_sub w_mul w_and w_or w_xor w_shl w_shr w_div w_mod w_trunc w_fits le_byte from_le N.pow] in t.

Lemma run_rng_S : forall ck usz n d k vs f, find_fn rng_fns k = Some f ->
  run_rng ck usz n (S d) k vs = run_body (rng_g ck usz n) rng_prog (run_rng ck usz n d) f vs.
Proof. intros ck usz n d k vs f H. cbn [run_rng]. rewrite H. reflexivity. Qed.
Ltac rng_enter :=
  match goal with
  | |- context [run_rng ?ck ?u ?n (S ?d) ?k ?vs] =>
      let r := eval vm_compute in (find_fn rng_fns k) in
      match r with
      | Some ?f => rewrite (run_rng_S ck u n d k vs f); [|vm_cast_no_check (eq_refl r)]
      end
  end.
(** A generator's core: sixteen words; its index is at most 64. *)
Definition core_ok (st : list N) : Prop := length st = 16%nat /\ words st.
Definition soft (n : N) : list N -> list N * list N := soft_gen_ks_blocks (N.to_nat n).
Lemma text_generate_soft : forall ck usz n d st, In usz pointer_widths -> core_ok st ->
  text_generate (run_fn (chacha_i ck usz Legacy n) chacha_prog (S (S (S d)))) st = soft n st.
Proof.
  intros ck usz n d st U [H W]. unfold text_generate. unfold chacha_i.
  rewrite src_gen_ks_blocks by (assumption || apply repeat_length). unfold soft.
  destruct (soft_gen_ks_blocks (N.to_nat n) st) as [ks st']. reflexivity.
Qed.
Lemma soft_core n st : core_ok st -> core_ok (snd (soft n st)).
Proof.
  intros H. unfold soft. rewrite soft_rng_eq by exact H. cbn [snd]. destruct (adv_wf Legacy 4 st H) as [H1 H2]. split; assumption.
Qed.
(** The contract of [BlockRng] depends on [generate] at cores only. *)
Section Ext.
  Context (G G' : list N -> list N * list N).
  Context (E : forall st, core_ok st -> G st = G' st).
  Lemma reset_ext b k : core_ok (b_core b) -> reset_and_skip G b k = reset_and_skip G' b k.
  Proof. intros H. unfold reset_and_skip. rewrite E by exact H. reflexivity. Qed.
  Lemma refill_ext b : core_ok (b_core b) -> refill G b = refill G' b.
  Proof. intros H. unfold refill. rewrite E by exact H. reflexivity. Qed.
  Lemma next_word_ext b : core_ok (b_core b) -> next_word G b = next_word G' b.
  Proof. intros H. unfold next_word. rewrite refill_ext by exact H. reflexivity. Qed.
  Context (K : forall st, core_ok st -> core_ok (snd (G' st))).
  Lemma refill_core b : core_ok (b_core b) -> core_ok (b_core (refill G' b)).
  Proof. intros H. unfold refill. destruct (_ <=? _)%nat; [|exact H]. pose proof (K _ H) as HK. destruct (G' (b_core b)). exact HK. Qed.
  Lemma fill_loop_ext fuel : forall b len, core_ok (b_core b) -> fill_loop G fuel b len = fill_loop G' fuel b len.
  Proof.
    induction fuel as [|fuel IH]; intros b len H; cbn [fill_loop]; [reflexivity|]. destruct (len =? 0)%nat; [reflexivity|].
    cbv zeta. rewrite refill_ext by exact H. rewrite IH; [reflexivity|]. cbn [b_core]. apply refill_core. exact H.
  Qed.
  Lemma next_u64_ext b : core_ok (b_core b) -> next_u64 G b = next_u64 G' b.
  Proof. intros H. unfold next_u64. rewrite E by exact H. reflexivity. Qed.
End Ext.
Lemma block_of_val b : block_of (block_val b) = Some b.
Proof. destruct b. cbn. rewrite Nat2N.id. reflexivity. Qed.
Section Calls.
  Context (ck : bool) (usz n : N) (d : nat) (U : In usz pointer_widths).
  Let G := text_generate (run_fn (chacha_i ck usz Legacy n) chacha_prog (S (S (S d)))).
  Lemma G_soft st : core_ok st -> G st = soft n st.
  Proof. apply text_generate_soft. exact U. Qed.
  Lemma run_block k vs : match find_fn rng_fns k with None => true | _ => false end = true -> match find_fn block_fns k with None => false | _ => true end = true ->
    run_rng ck usz n (S d) k vs = block_call G k vs.
  Proof. intros H1 H2. cbn [run_rng]. destruct (find_fn rng_fns k); [discriminate|]. destruct (find_fn block_fns k); [reflexivity|discriminate]. Qed.
  Lemma run_chacha k vs : match find_fn rng_fns k with None => true | _ => false end = true -> match find_fn block_fns k with None => true | _ => false end = true ->
    run_rng ck usz n (S d) k vs = run_fn (chacha_i ck usz Legacy n) chacha_prog (S (S (S d))) k vs.
  Proof. intros H1 H2. cbn [run_rng]. destruct (find_fn rng_fns k); [discriminate|]. destruct (find_fn block_fns k); [discriminate|reflexivity]. Qed.
  Ltac block := rewrite run_block by (vm_cast_no_check (eq_refl true)); unfold block_call, block_meth; cbn [String.eqb Ascii.eqb Bool.eqb]; rewrite ?block_of_val.
  Lemma call_new st : run_rng ck usz n (S d) "BlockRng::new" [core_val st] = XOk (block_val (b_new st), [core_val st]).
  Proof. block. reflexivity. Qed.
  Lemma call_offset b : run_rng ck usz n (S d) "BlockRng::word_offset" [block_val b] = XOk (VInt Usz (N.of_nat (word_offset b)), [block_val b]).
  Proof. block. reflexivity. Qed.
  Lemma call_reset b t k : core_ok (b_core b) -> run_rng ck usz n (S d) "BlockRng::reset_and_skip" [block_val b; VInt t k] =
    with_res (reset_and_skip (soft n) b (N.to_nat k)) (fun b => XOk (VUnit, [block_val b; VInt Usz k])).
  Proof. intros H. block. rewrite (reset_ext G (soft n) G_soft) by exact H. reflexivity. Qed.
  Lemma call_next_word b : core_ok (b_core b) -> run_rng ck usz n (S d) "BlockRng::next_word" [block_val b] =
    let (x, b) := next_word (soft n) b in XOk (VInt U32 x, [block_val b]).
  Proof. intros H. block. rewrite (next_word_ext G (soft n) G_soft) by exact H. reflexivity. Qed.
  Lemma call_next_u64 b : core_ok (b_core b) -> run_rng ck usz n (S d) "BlockRng::next_u64_from_u32" [block_val b] =
    let (x, b) := next_u64 (soft n) b in XOk (VInt U64 x, [block_val b]).
  Proof. intros H. block. rewrite (next_u64_ext G (soft n) G_soft) by exact H. reflexivity. Qed.
  Lemma call_fill b dest : core_ok (b_core b) -> run_rng ck usz n (S d) "BlockRng::fill_bytes" [block_val b; VArr U8 dest] =
    let (l, b) := fill_bytes (soft n) b (length dest) in XOk (VUnit, [block_val b; VArr U8 l]).
  Proof. intros H. block. unfold fill_bytes. rewrite (fill_loop_ext G (soft n) G_soft (soft_core n)) by exact H. reflexivity. Qed.
  Lemma call_new_internal key iv : length key = 32%nat -> In (length iv) [4; 8; 12]%nat ->
    run_rng ck usz n (S d) "ChaChaCore::new_internal" [VArr U8 key; VArr U8 iv] =
    of_res (new_internal Legacy key iv) (fun st => XOk (core_val st, [VArr U8 key; VArr U8 iv])).
  Proof. intros H1 H2. rewrite run_chacha by (vm_cast_no_check (eq_refl true)). apply src_new_internal; assumption. Qed.
  Lemma call_get_pos st : core_ok st -> run_rng ck usz n (S d) "ChaChaCore::get_block_pos" [core_val st] = XOk (VInt U64 (get_block_pos Legacy st), [core_val st]).
  Proof. intros [H W]. rewrite run_chacha by (vm_cast_no_check (eq_refl true)). exact (src_get_block_pos ck usz Legacy n (S d) st H W). Qed.
  Lemma call_set_pos st pos : length st = 16%nat -> run_rng ck usz n (S d) "ChaChaCore::set_block_pos" [core_val st; VInt U64 pos] =
    XOk (VUnit, [core_val (set_block_pos Legacy st pos); VInt U64 pos]).
  Proof. intros H. rewrite run_chacha by (vm_cast_no_check (eq_refl true)). exact (src_set_block_pos ck usz Legacy n (S d) st pos H). Qed.
End Calls.
