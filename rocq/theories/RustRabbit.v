(** The text of the Rabbit crate, run: it computes the functions of the model. *)
From Coq Require Import String Lia.
From Verif Require Import WordLemmas RustLemmas.
From Verif Require Export Rabbit.
Local Open Scope string_scope.
Local Open Scope N_scope.
Local Open Scope list_scope.

(** The right-hand side: everything but the operations on words. *)
Ltac rs_rhs :=
  match goal with |- _ = ?b =>
    let u := eval cbv -[add_ck mul_ck add32 sub32 xor32 rotl32 as_u8 as_u16 as_u32 shl16 shl32 WORDSIZE N.land N.lor N.lxor N.shiftl N.shiftr N.div N.modulo counter_update next_state] in b in
    rs_replace b u end.
(** Operations that may overflow: both sides go on with the result, or both panic. *)
Ltac rs_cases := unfold w_add, w_mul, w_mod; change WORDSIZE with M32; repeat (match goal with |- context [add_ck ?a ?b ?c ?d] => destruct (add_ck a b c d) | |- context [mul_ck ?a ?b ?c ?d] => destruct (mul_ck a b c d) end; [|reflexivity]).

Definition state_val (s : rstate) : val := VStruct "State" [("x", VArr U32 (r_x s)); ("c", VArr U32 (r_c s)); ("carry_bit", VInt U8 (r_carry s))].
Definition wf (s : rstate) : Prop := length (r_x s) = 8%nat /\ length (r_c s) = 8%nat.

(** [lib.rs:124-131] *)
Lemma src_counter_update : forall ck usz d s, wf s ->
  run_fn (rabbit_g ck usz) rabbit_prog (S d) "State::counter_update" [state_val s] =
  match counter_update ck s with Ok s' => XOk (VUnit, [state_val s']) | Panic => XPanic end.
Proof.
  intros ck usz d [x c b] [Hx Hc]. cbn [r_x r_c] in Hx, Hc. unfold state_val. cbn [r_x r_c r_carry].
  rs_enter. rs_body. rewrite execs_nil. rs_flow. rewrite eval_for. rs_flow. rs_expr. rs_items.
  match goal with |- context [map (VInt ?t) (numbers ?u ?v)] => change (map (VInt t) (numbers u v)) with (map (fun j => VInt Any (N.of_nat j)) (seq 0 8)) end.
  match goal with |- context [loop _ _ ?r] =>
    change r with ((fun q : list N * N => [("self", VStruct "State" [("x", VArr U32 x); ("c", VArr U32 (fst q)); ("carry_bit", VInt U8 (snd q))])]) (c, b)) end.
  rewrite (flat_for _ _ _ _ (counter_step ck) (fun q => length (fst q) = 8%nat)).
  - unfold counter_update. cbn [r_c r_carry]. destruct (for_ _ _ _) as [[c' b']|]; [|reflexivity]. cbn [fst snd bind]. rs_lhs. reflexivity.
  - exact Hc.
  - intros j [c0 b0] [c1 b1] H _. unfold counter_step. destruct (add_ck _ _ _ _); cbn [bind]; [|discriminate].
    destruct (add_ck _ _ _ _); cbn [bind]; [|discriminate]. intros E. injection E as <- <-. cbn [fst]. rewrite upd_len. exact H.
  - intros j [c0 b0] H I. cbn [fst snd] in *. destr_list c0 H.
    cbn [In seq] in I.
    repeat (destruct I as [<-|I]); [..|contradiction I].
    all: unfold for_body; rs_lhs; unfold counter_step; rs_rhs; rs_cases; reflexivity.
Qed.

Lemma counter_update_wf ck s s' : wf s -> counter_update ck s = Ok s' -> wf s'.
Proof.
  intros [Hx Hc] E. unfold counter_update in E. destruct (for_ _ _ _) as [[c b]|] eqn:F; cbn [bind] in E; [|discriminate E]. injection E as <-.
  split; [exact Hx|]. cbn [r_c].
  assert (G : forall l q q', for_ l (counter_step ck) q = Ok q' -> length (fst q) = 8%nat -> length (fst q') = 8%nat).
  { intros l. induction l as [|j l IH]; intros q q' E H; [injection E as <-; exact H|]. cbn [for_] in E.
    destruct (counter_step ck j q) as [q1|] eqn:E1; [|discriminate E]. cbn [bind] in E. apply (IH _ _ E). destruct q as [c0 b0]. revert E1. unfold counter_step.
    destruct (add_ck _ _ _ _); cbn [bind]; [|discriminate]. destruct (add_ck _ _ _ _); cbn [bind]; [|discriminate].
    intros E1. injection E1 as <-. cbn [fst] in *. rewrite upd_len. exact H. }
  exact (G _ _ _ F Hc).
Qed.
Lemma for_inv : forall A S (l : list A) (f : A -> S -> Res S) (P : S -> Prop) s s',
  (forall j s s', P s -> f j s = Ok s' -> P s') -> for_ l f s = Ok s' -> P s -> P s'.
Proof.
  intros A S l f P. induction l as [|j l IH]; intros s s' H E Hs; [injection E as <-; exact Hs|]. cbn [for_] in E.
  destruct (f j s) as [s1|] eqn:E1; [|discriminate E]. cbn [bind] in E. apply (IH s1 s' H E). exact (H _ _ _ Hs E1).
Qed.
Lemma g_step_len ck s j g g' : length g = 8%nat -> g_step ck s j g = Ok g' -> length g' = 8%nat.
Proof.
  intros H. unfold g_step. destruct (add_ck _ _ _ _); cbn [bind]; [|discriminate]. destruct (mul_ck _ _ _ _); cbn [bind]; [|discriminate].
  intros E. injection E as <-. rewrite upd_len. exact H.
Qed.
(** [lib.rs:134-162] *)
Lemma src_next_state : forall ck usz d s, wf s ->
  run_fn (rabbit_g ck usz) rabbit_prog (S (S d)) "State::next_state" [state_val s] =
  match next_state ck s with Ok s' => XOk (VUnit, [state_val s']) | Panic => XPanic end.
Proof.
  intros ck usz d s Hs. rs_enter.
  pose proof (src_counter_update ck usz d s Hs) as HC. revert HC.
  generalize (run_fn (rabbit_g ck usz) rabbit_prog (S d)) as cf. intros cf HC.
  destruct s as [xa ca ba]. unfold state_val at 1 in HC. unfold state_val at 1. cbn [r_x r_c r_carry] in HC |- *. rs_body. rs_stmt. rs_stmt.
  rewrite HC. clear HC. unfold next_state. pose proof (counter_update_wf ck {| r_x := xa; r_c := ca; r_carry := ba |}) as Hw.
  destruct (counter_update ck _) as [s1|]; [|rewrite flat_panic; reflexivity]. specialize (Hw s1 Hs eq_refl). cbn [bind].
  destruct s1 as [x c b]. destruct Hw as [Hx Hc]. cbn [r_x r_c] in Hx, Hc. unfold state_val. cbn [r_x r_c r_carry]. rs_again.
  destr_list x Hx. destr_list c Hc. rs_for.
  match goal with |- context [map (VInt ?t) (numbers ?u ?v)] => change (map (VInt t) (numbers u v)) with (map (fun j => VInt Any (N.of_nat j)) (seq 0 8)) end.
  match goal with |- context [loop _ _ ?r] =>
    match r with _ :: ?E => change r with ((fun q : list N => ("g", VArr U32 q) :: E) (repeat 0 8)) end end.
  rewrite (flat_for _ _ _ _ (g_step ck {| r_x := [x0; x1; x2; x3; x4; x5; x6; x7]; r_c := [x; x8; x9; x10; x11; x12; x13; x14]; r_carry := b |}) (fun q => length q = 8%nat)).
  - match goal with |- context [for_ ?l ?f ?a] => pose proof (fun q' E => for_inv _ _ l f (fun q => length q = 8%nat) a q' (g_step_len ck _) E eq_refl) as Hl; destruct (for_ l f a) as [g|] end; [|reflexivity].
    specialize (Hl g eq_refl). cbn [bind r_x r_c r_carry]. destr_list g Hl.
    cbv beta. rs_again. do 8 rs_stmt. rewrite execs_nil. rs_lhs. reflexivity.
  - reflexivity.
  - intros j g g' H _. apply g_step_len, H.
  - intros j g H I. cbn [fst snd] in *. destr_list g H. 
    cbn [In seq] in I.
    repeat (destruct I as [<-|I]); [..|contradiction I].
    all: unfold for_body; rs_lhs; unfold g_step; rs_rhs; rs_cases; reflexivity.
Qed.

Lemma next_state_wf ck s s' : wf s -> next_state ck s = Ok s' -> wf s'.
Proof.
  intros Hs. unfold next_state. pose proof (counter_update_wf ck s) as Hw. destruct (counter_update ck s) as [s1|]; cbn [bind]; [|discriminate].
  destruct (for_ _ _ _) as [g|]; cbn [bind]; [|discriminate]. intros E. injection E as <-. destruct (Hw s1 Hs eq_refl) as [Hx Hc].
  split; cbn [r_x r_c]; [rewrite !upd_len; exact Hx|exact Hc].
Qed.
(** [lib.rs:165-197] *)
Lemma src_extract : forall ck usz d s, wf s ->
  run_fn (rabbit_g ck usz) rabbit_prog (S d) "State::extract" [state_val s] = XOk (VArr U8 (extract s), [state_val s]).
Proof.
  intros ck usz d [x c b] [Hx Hc]. cbn [r_x r_c] in Hx, Hc. destr_list x Hx. unfold state_val. cbn [r_x r_c r_carry].
  rs_enter. rs_lhs. reflexivity.
Qed.
(** [lib.rs:199-202] *)
Lemma src_next_block : forall ck usz d s, wf s ->
  run_fn (rabbit_g ck usz) rabbit_prog (S (S (S d))) "State::next_block" [state_val s] =
  match next_block ck s with Ok (b, s') => XOk (VArr U8 b, [state_val s']) | Panic => XPanic end.
Proof.
  intros ck usz d s Hs. rs_enter.
  pose proof (src_next_state ck usz d s Hs) as HN. pose proof (src_extract ck usz (S d)) as HE. revert HN HE.
  generalize (run_fn (rabbit_g ck usz) rabbit_prog (S (S d))) as cf. intros cf HN HE.
  destruct s as [xa ca ba]. unfold state_val at 1 in HN. unfold state_val at 1. cbn [r_x r_c r_carry] in HN |- *. rs_body. rs_stmt.
  rewrite HN. unfold next_block. pose proof (next_state_wf ck {| r_x := xa; r_c := ca; r_carry := ba |}) as Hw.
  destruct (next_state ck _) as [s1|]; [|rewrite flat_panic; reflexivity]. specialize (Hw s1 Hs eq_refl). cbn [bind].
  specialize (HE s1 Hw). generalize dependent (extract s1). intros o HE. destruct s1 as [x c b]. unfold state_val in *. cbn [r_x r_c r_carry] in *.
  rs_again. rewrite execs_nil. rs_flow. rs_expr. rewrite HE. rs_lhs. reflexivity.
Qed.
(** [lib.rs:303-305] *)
Definition rabbit_backend (s : rstate) : val := VStruct "Backend" [("0", state_val s)].
Lemma src_rabbit_gen_ks_block : forall ck usz d s block, wf s -> length block = 16%nat ->
  run_fn (rabbit_g ck usz) rabbit_prog (S (S (S (S d)))) "Backend::gen_ks_block" [rabbit_backend s; VArr U8 block] =
  match next_block ck s with Ok (b, s') => XOk (VUnit, [rabbit_backend s'; VArr U8 b]) | Panic => XPanic end.
Proof.
  intros ck usz d s block Hs Hb. rs_enter.
  pose proof (src_next_block ck usz d s Hs) as HN. revert HN.
  generalize (run_fn (rabbit_g ck usz) rabbit_prog (S (S (S d)))) as cf. intros cf HN.
  assert (Hl : forall b s', next_block ck s = Ok (b, s') -> length b = 16%nat).
  { intros b s'. unfold next_block. destruct (next_state ck s); cbn [bind]; [|discriminate]. intros E. injection E as <- <-. reflexivity. }
  destr_list block Hb.
  destruct s as [xa ca ba]. unfold rabbit_backend. unfold state_val at 1 in HN. unfold state_val at 1. cbn [r_x r_c r_carry] in HN |- *. rs_body. rs_stmt.
  rewrite HN. destruct (next_block ck _) as [[b [xb cb yb]]|]; [|rewrite flat_panic; reflexivity].
  specialize (Hl b _ eq_refl). destr_list b Hl. unfold state_val. cbn [r_x r_c r_carry].
  rs_again. rewrite execs_nil. rs_lhs. reflexivity.
Qed.

Ltac rs_rhs ::=
  match goal with |- _ = ?b =>
    let u := eval cbv -[add_ck mul_ck add32 sub32 xor32 rotl32 as_u8 as_u16 as_u32 shl16 shl32 WORDSIZE N.land N.lor N.lxor N.shiftl N.shiftr N.div N.modulo counter_update next_state next_state4] in b in
    rs_replace b u end.
Lemma next_state4_wf ck s s' : wf s -> next_state4 ck s = Ok s' -> wf s'.
Proof. intros Hs E. unfold next_state4 in E. apply (for_inv _ _ _ _ _ _ _ (fun _ => next_state_wf ck) E Hs). Qed.
(** [lib.rs:60-96] *)
Lemma src_setup_key : forall ck usz d key, length key = 16%nat ->
  run_fn (rabbit_g ck usz) rabbit_prog (S (S (S d))) "State::setup_key" [VArr U8 key] =
  match setup_key ck key with Ok s => XOk (state_val s, [VArr U8 key]) | Panic => XPanic end.
Proof.
  intros ck usz d key Hk. rs_enter.
  pose proof (src_next_state ck usz d) as HN. revert HN.
  generalize (run_fn (rabbit_g ck usz) rabbit_prog (S (S d))) as cf. intros cf HN.
  destr_list key Hk. unfold setup_key.
  match goal with |- context [fold_left ?f ?l ?a] => let u := eval cbv -[shl16 shl32 N.lor] in (fold_left f l a) in change (fold_left f l a) with u end. cbv beta match.
  match goal with |- context [next_state4 ck ?s] => set (s0 := s) end.
  rs_body. do 11 rs_stmt. rs_stmt_all. rs_stmt. rs_stmt. rs_for.
  match goal with |- context [map (VInt ?t) (numbers ?u ?v)] => change (map (VInt t) (numbers u v)) with (map (fun j => VInt Any (N.of_nat j)) (seq 0 4)) end.
  match goal with |- context [loop _ _ ?r] =>
    match r with _ :: ?E => change r with ((fun q : rstate => ("state", state_val q) :: E) s0); set (E0 := E) end end.
  rewrite (flat_for _ _ _ _ (fun _ => next_state ck) wf).
  - change (for_ (seq 0 4) (fun _ : nat => next_state ck) s0) with (next_state4 ck s0).
    pose proof (next_state4_wf ck s0) as Hw. destruct (next_state4 ck s0) as [s1|]; [|reflexivity].
    assert (W : wf s1) by (apply Hw; [split; reflexivity|reflexivity]). clear Hw. cbn [bind].
    destruct s1 as [x2' c2' b2']. destruct W as [W1 W2]. cbn [r_x r_c] in W1, W2. destr_list x2' W1. destr_list c2' W2.
    unfold state_val. cbn [r_x r_c r_carry]. cbv beta. unfold E0. clear. rs_again. rs_stmt_all. rewrite execs_nil. rs_lhs. reflexivity.
  - split; reflexivity.
  - intros j a a' Ha _. apply next_state_wf, Ha.
  - intros j s Hs _. specialize (HN s Hs). clear s0. unfold E0. clear E0. destruct s as [xa ca ba]. unfold state_val at 1 in HN. unfold state_val at 1. cbn [r_x r_c r_carry] in HN |- *.
    unfold for_body. cbn [bind_pat xbind]. rewrite eval_blk. rs_flow. rs_stmt. rewrite HN.
    destruct (next_state ck _) as [[xb cb bb]|]; [|rewrite flat_panic; reflexivity]. unfold state_val. cbn [r_x r_c r_carry]. rs_again.
    rewrite execs_nil. rs_lhs. reflexivity.
Qed.
(** [lib.rs:99-121] *)
Lemma src_setup_iv : forall ck usz d s iv, wf s -> length iv = 8%nat ->
  run_fn (rabbit_g ck usz) rabbit_prog (S (S (S d))) "State::setup_iv" [state_val s; VArr U8 iv] =
  match setup_iv ck iv s with Ok s' => XOk (VUnit, [state_val s'; VArr U8 iv]) | Panic => XPanic end.
Proof.
  intros ck usz d [xa ca ba] iv [Hx Hc] Hi. cbn [r_x r_c] in Hx, Hc. rs_enter.
  pose proof (src_next_state ck usz d) as HN. revert HN.
  generalize (run_fn (rabbit_g ck usz) rabbit_prog (S (S d))) as cf. intros cf HN.
  destr_list iv Hi. destr_list ca Hc. unfold setup_iv, state_val at 1. cbn [r_x r_c r_carry].
  match goal with |- context [next_state4 ck ?s] => let u := eval cbv -[shl32 N.lor N.land N.shiftr xor32] in s in change s with u; set (s0 := u) end.
  rs_body. do 13 rs_stmt. rewrite execs_nil. rs_flow. rewrite eval_for. rs_flow. rs_expr. rs_items.
  match goal with |- context [map (VInt ?t) (numbers ?u ?v)] => change (map (VInt t) (numbers u v)) with (map (fun j => VInt Any (N.of_nat j)) (seq 0 4)) end.
  match goal with |- context [loop _ _ ?r] =>
    match r with ?I :: _ :: ?E => change r with ((fun q : rstate => I :: ("self", state_val q) :: E) s0); set (E0 := E); set (I0 := I) end end.
  rewrite (flat_for _ _ _ _ (fun _ => next_state ck) wf).
  - change (for_ (seq 0 4) (fun _ : nat => next_state ck) s0) with (next_state4 ck s0).
    destruct (next_state4 ck s0) as [[x2' c2' b2']|]; [|reflexivity].
    unfold state_val. cbn [r_x r_c r_carry]. cbv beta. unfold E0, I0. clear. rs_lhs. reflexivity.
  - split; [exact Hx|reflexivity].
  - intros j a a' Ha _. apply next_state_wf, Ha.
  - intros j s Hs _. specialize (HN s Hs). clear s0. unfold E0, I0. clear E0 I0. destruct s as [xc cc bc]. unfold state_val at 1 in HN. unfold state_val at 1. cbn [r_x r_c r_carry] in HN |- *.
    unfold for_body. cbn [bind_pat xbind]. rewrite eval_blk. rs_flow. rs_stmt. rewrite HN.
    destruct (next_state ck _) as [[xb cb bb]|]; [|rewrite flat_panic; reflexivity]. unfold state_val. cbn [r_x r_c r_carry]. rs_again.
    rewrite execs_nil. rs_lhs. reflexivity.
Qed.
(** [lib.rs:224-228], [:266-270] *)
Definition key_only_val (s : rstate) : val := VStruct "RabbitKeyOnlyCore" [("state", state_val s)].
Definition rabbit_core_val (s : rstate) : val := VStruct "RabbitCore" [("state", state_val s)].
Lemma src_key_only_new : forall ck usz d key, length key = 16%nat ->
  run_fn (rabbit_g ck usz) rabbit_prog (S (S (S (S d)))) "RabbitKeyOnlyCore::new" [VArr U8 key] =
  match rabbit_key_only ck key with Ok s => XOk (key_only_val s, [VArr U8 key]) | Panic => XPanic end.
Proof.
  intros ck usz d key Hk. rs_enter.
  pose proof (src_setup_key ck usz d key Hk) as HK. revert HK. unfold rabbit_key_only.
  generalize (run_fn (rabbit_g ck usz) rabbit_prog (S (S (S d)))) as cf. intros cf HK.
  rs_body. rewrite execs_nil. rs_flow. rs_expr. rewrite HK. unfold key_only_val, state_val.
  destruct (setup_key ck key) as [[xb cb bb]|]; [|rewrite flat_panic; reflexivity]. cbn [r_x r_c r_carry]. rs_lhs. reflexivity.
Qed.
Lemma src_inner_iv_init : forall ck usz d s iv, wf s -> length iv = 8%nat ->
  run_fn (rabbit_g ck usz) rabbit_prog (S (S (S (S d)))) "RabbitCore::inner_iv_init" [key_only_val s; VArr U8 iv] =
  match setup_iv ck iv s with Ok s' => XOk (rabbit_core_val s', [key_only_val s; VArr U8 iv]) | Panic => XPanic end.
Proof.
  intros ck usz d s iv Hs Hi. rs_enter.
  pose proof (src_setup_iv ck usz d s iv Hs Hi) as HK. revert HK.
  generalize (run_fn (rabbit_g ck usz) rabbit_prog (S (S (S d)))) as cf. intros cf HK.
  destruct s as [xc cc bc]. unfold key_only_val, rabbit_core_val in *. unfold state_val at 1 in HK. unfold state_val at 1 3. cbn [r_x r_c r_carry] in HK |- *.
  rs_body. rs_stmt. rs_stmt. rewrite HK. unfold state_val.
  destruct (setup_iv ck iv _) as [[xb cb bb]|]; [|rewrite flat_panic; reflexivity]. cbn [r_x r_c r_carry]. rs_again. rewrite execs_nil. rs_lhs. reflexivity.
Qed.
