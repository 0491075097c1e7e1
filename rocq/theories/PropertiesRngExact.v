(** C26, exactly: with overflow checks, which histories of a generator panic, and that all
    others answer as the position machine does.

    The machine of [SpecRng] is given one more number, [i]: how many words of the current
    64-word buffer have been handed out (0 when nothing is buffered). *)
From Coq Require Import Arith NArith List Bool Lia ZifyBool ZifyNat ZifyN.
From Verif Require Import Word Res WordLemmas PropCommon SpecChaCha SpecRng ChaChaCore ChaChaProofs ChaChaDispatch BlockRng
  ChaChaDispatchProofs ChaChaRng RngProofs CiphersProofs PropertiesRng.
Import ListNotations.
Open Scope N_scope.

Definition handed (o : rop) (i : N) : N :=
  match o with
  | NextU32 => (i + 1) mod 64 | NextU64 => (i + 2) mod 64 | Fill n => (i + N.of_nat ((n + 3) / 4)) mod 64
  | SetWordPos p => p mod 16 | SetBlockPos _ | SetStream _ => 0
  | _ => i
  end.
(** The buffer starts at word [g_pos g - i]: its block counter is one of the last four. *)
Definition straddles (g : rg) (i : N) : bool := negb (i =? 0) && ((g_pos g + 64 - i) mod 2 ^ 68 <? 64).
Fixpoint rg_checked (n : nat) (g : rg) (i : N) (h : list rop) : option (list rret) :=
  match h with
  | [] => Some []
  | o :: h' =>
      if match o with GetBlockPos => straddles g i | _ => false end then None
      else let (x, g1) := rg_step n g o in
           match rg_checked n g1 (handed o i) h' with Some xs => Some (x :: xs) | None => None end
  end.

(** ** The index of the buffer *)
Definition bi (r : rng) : Prop := (1 <= b_idx r <= 64)%nat.
Definition at_i (r : rng) (i : N) : Prop := N.of_nat (b_idx r) mod 64 = i.
Lemma offset_i r i : bi r -> at_i r i -> N.of_nat (word_offset r) = i.
Proof. unfold bi, at_i, word_offset, BUFFER_SIZE. intros H <-. destruct (Nat.eqb_spec (b_idx r) 64) as [->|]; [reflexivity|]. lia. Qed.
Lemma refill_i G r i : bi r -> at_i r i -> N.of_nat (b_idx (refill G r)) = i /\ (b_idx (refill G r) < 64)%nat.
Proof.
  unfold bi, at_i, refill, BUFFER_SIZE. intros H <-. destruct (Nat.leb_spec 64 (b_idx r)).
  - destruct (G (b_core r)). cbn [b_idx]. replace (b_idx r) with 64%nat by lia. split; [reflexivity|lia].
  - lia.
Qed.
(** The buffer has 64 words whenever the next call could read it. *)
Definition full (r : rng) : Prop := wf16 (b_core r) /\ ((b_idx r < 64)%nat -> length (b_res r) = 64%nat).
Lemma at_i_0 r i : at_i r i -> at_i r ((i + N.of_nat ((0 + 3) / 4)) mod 64).
Proof. unfold at_i. intros <-. replace (N.of_nat ((0 + 3) / 4)) with 0 by reflexivity. rewrite N.add_0_r, N.mod_mod by discriminate. reflexivity. Qed.
(** What one turn of the filling loop takes from the buffer. *)
Lemma fill_arith k len : (k < 64)%nat -> len <> 0%nat ->
  let fl := Nat.min (4 * (64 - k)) len in
  (1 <= k + (fl + 3) / 4 <= 64)%nat /\ (len - fl < len)%nat /\ ((len + 3) / 4 = (fl + 3) / 4 + (len - fl + 3) / 4)%nat.
Proof. cbv zeta. intros Hk Hn. destruct (Nat.min_spec (4 * (64 - k)) len) as [[H ->]|[H ->]]; lia. Qed.
Lemma mod_chain i a b : ((i + N.of_nat a) mod 64 + N.of_nat b) mod 64 = (i + N.of_nat (a + b)) mod 64.
Proof. rewrite Nnat.Nat2N.inj_add, N.add_mod_idemp_l, N.add_assoc by discriminate. reflexivity. Qed.
Section Fill.
  Context (G : list N -> list N * list N) (HG : forall st, wf16 st -> length (fst (G st)) = 64%nat /\ wf16 (snd (G st))).
  Lemma refill_full r : full r -> wf16 (b_core (refill G r)) /\ length (b_res (refill G r)) = 64%nat.
  Proof using All.
    intros [Hw Hf]. unfold refill, BUFFER_SIZE. destruct (Nat.leb_spec 64 (b_idx r)); [|split; [exact Hw|apply Hf; lia]].
    destruct (HG (b_core r) Hw) as [A B]. destruct (G (b_core r)). auto.
  Qed.
  Lemma fill_i fuel : forall r i len, bi r -> full r -> at_i r i -> (len <= fuel)%nat ->
    let r' := snd (fill_loop G fuel r len) in bi r' /\ full r' /\ at_i r' ((i + N.of_nat ((len + 3) / 4)) mod 64).
  Proof using All.
    induction fuel as [|fuel IH]; intros r i len Hb Hf Hi Hl; cbn [fill_loop snd].
    - replace len with 0%nat by lia. split; [exact Hb|]. split; [exact Hf|]. apply at_i_0. exact Hi.
    - destruct (Nat.eqb_spec len 0) as [->|Hn].
      { cbn [snd]. split; [exact Hb|]. split; [exact Hf|]. apply at_i_0. exact Hi. }
      destruct (refill_i G r i Hb Hi) as [Ei Lt]. cbv zeta. destruct (refill_full r Hf) as [Hw Hq].
      generalize dependent (refill G r). intros q Ei Lt Hw Hq. rewrite skipn_length, Hq.
      destruct (fill_arith (b_idx q) len Lt Hn) as (A1 & A2 & A3).
      generalize dependent (Nat.min (4 * (64 - b_idx q)) len). intros fl A1 A2 A3.
      match goal with |- context [fill_loop G fuel ?r1 ?l1] => specialize (IH r1 ((i + N.of_nat ((fl + 3) / 4)) mod 64) l1) end.
      destruct (fill_loop G fuel _ _) as [rest b]. cbn [snd] in *. cbv zeta in IH.
      destruct IH as (A & B & C).
      + exact A1.
      + split; [exact Hw|]. intros _. exact Hq.
      + unfold at_i. cbn [b_idx]. rewrite <- Ei, Nnat.Nat2N.inj_add. reflexivity.
      + clear - A2 Hl. lia.
      + split; [exact A|]. split; [exact B|]. unfold at_i in *. rewrite C, A3. apply mod_chain.
  Qed.
  Lemma next_word_i r i : bi r -> full r -> at_i r i -> let r' := snd (next_word G r) in bi r' /\ full r' /\ at_i r' ((i + 1) mod 64).
  Proof using All.
    intros Hb Hf Hi. destruct (refill_i G r i Hb Hi) as [Ei Lt]. destruct (refill_full r Hf) as [Hw Hq].
    unfold next_word. cbv zeta. cbn [snd]. unfold bi, full, at_i. cbn [b_idx b_core b_res]. split; [lia|]. split; [auto|]. lia.
  Qed.
  Lemma next_u64_i r i : bi r -> full r -> at_i r i -> let r' := snd (next_u64 G r) in bi r' /\ full r' /\ at_i r' ((i + 2) mod 64).
  Proof using All.
    intros Hb [Hw Hf] Hi. destruct (HG (b_core r) Hw) as [A B]. unfold next_u64, BUFFER_SIZE, bi, full, at_i in *. cbv zeta.
    destruct (Nat.ltb_spec (b_idx r) (64 - 1)); [|destruct (Nat.leb_spec 64 (b_idx r)); destruct (G (b_core r))]; cbn [fst snd b_idx b_core b_res] in *.
    - split; [lia|]. split; [split; [exact Hw|intros; apply Hf; lia]|]. lia.
    - split; [lia|]. split; [auto|]. lia.
    - split; [lia|]. split; [auto|]. lia.
  Qed.
End Fill.

Lemma gen_64 cf pc n st : wf16 st -> length (fst (rng_gen cf pc n st)) = 64%nat /\ wf16 (snd (rng_gen cf pc n st)).
Proof.
  intros H. unfold rng_gen. rewrite generate_ok by exact H. cbn [fst snd]. split; [apply (words_from_length Legacy n 4 st H)|].
  apply adv_wf. exact H.
Qed.
Lemma upd_wf st i w : wf16 st -> (i < 16)%nat -> w < M32 -> wf16 (upd st i w).
Proof. intros [Hl Hw] Hi H. split; [rewrite upd_length; exact Hl | apply Forall_upd; assumption]. Qed.
Lemma reset_i cf pc n r k r' : wf16 (b_core r) -> (k < 64)%nat -> reset_and_skip (rng_gen cf pc n) r k = Ok r' ->
  bi r' /\ full r' /\ at_i r' (N.of_nat k).
Proof.
  intros Hw Hk. unfold reset_and_skip, BUFFER_SIZE. destruct (Nat.eqb_spec k 0) as [->|Hn].
  - intros E. injection E as <-. unfold bi, full, at_i. cbn [b_idx b_core b_res]. split; [lia|]. split; [|reflexivity]. split; [exact Hw|lia].
  - destruct (Nat.ltb_spec k 64); [|lia]. cbn [assert_ bind]. destruct (gen_64 cf pc n _ Hw) as [A B].
    destruct (rng_gen cf pc n (b_core r)). cbn [fst snd] in *. intros E. injection E as <-.
    unfold bi, full, at_i. cbn [b_idx b_core b_res]. split; [lia|]. split; [auto|]. lia.
Qed.
Lemma step_i cf pc n ck r i o x r' : bi r -> full r -> at_i r i -> rop_ok o -> rng_step (rng_gen cf pc n) ck r o = Ok (x, r') ->
  bi r' /\ full r' /\ at_i r' (handed o i).
Proof.
  intros Hb Hf Hi Ho. destruct o; cbn [rng_step handed rop_ok] in *.
  - pose proof (next_word_i _ (gen_64 cf pc n) r i Hb Hf Hi) as H. cbv zeta in H. destruct (next_word _ r). intros E. injection E as <- <-. exact H.
  - pose proof (next_u64_i _ (gen_64 cf pc n) r i Hb Hf Hi) as H. cbv zeta in H. destruct (next_u64 _ r). intros E. injection E as <- <-. exact H.
  - pose proof (fill_i _ (gen_64 cf pc n) n0 r i n0 Hb Hf Hi (le_n _)) as H. cbv zeta in H. unfold fill_bytes. destruct (fill_loop _ n0 r n0).
    intros E. injection E as <- <-. exact H.
  - intros E. injection E as <- <-. auto.
  - destruct (rng_set_word_pos _ r p) as [r1|] eqn:E1; [|discriminate]. cbn [bind]. intros E. injection E as <- <-.
    unfold rng_set_word_pos, BLOCK_WORDS in E1. cbv zeta in E1. apply reset_i in E1.
    + rewrite N2Nat.id in E1. exact E1.
    + cbn [b_core]. destruct Hf as [Hw _]. repeat apply upd_wf; try lia; try assumption; unfold as_u32; apply N.mod_lt; discriminate.
    + lia.
  - destruct (rng_get_block_pos ck r); [|discriminate]. cbn [bind]. intros E. injection E as <- <-. auto.
  - destruct (rng_set_block_pos _ r b) as [r1|] eqn:E1; [|discriminate]. cbn [bind]. intros E. injection E as <- <-.
    unfold rng_set_block_pos in E1. cbn [reset_and_skip Nat.eqb bind b_core b_res b_idx] in E1. injection E1 as <-.
    unfold bi, full, at_i, BUFFER_SIZE. cbn [b_idx b_core b_res]. split; [lia|]. split; [|reflexivity]. split; [|lia].
    destruct Hf as [Hw _]. cbn [set_block_pos]. repeat apply upd_wf; try lia; try assumption.
    all: unfold as_u32; apply N.mod_lt; discriminate.
  - intros E. injection E as <- <-. auto.
  - destruct (set_stream _ r s) as [r1|] eqn:E1; [|discriminate]. cbn [bind]. intros E. injection E as <- <-.
    unfold set_stream, rng_set_block_pos in E1. cbn [reset_and_skip Nat.eqb bind b_core b_res b_idx] in E1. injection E1 as <-.
    unfold bi, full, at_i, BUFFER_SIZE. cbn [b_idx b_core b_res]. split; [lia|]. split; [|reflexivity]. split; [|lia].
    destruct Hf as [Hw _]. cbn [set_block_pos]. repeat apply upd_wf; try lia; try assumption.
    all: unfold as_u32; apply N.mod_lt; discriminate.
  - intros E. injection E as <- <-. auto.
  - destruct (serialize_state ck r); [|discriminate]. cbn [bind]. intros E. injection E as <- <-. auto.
Qed.

(** ** Histories *)
Lemma straddle_ok n r g i : Rel n r g -> bi r -> at_i r i ->
  (negb (word_offset r =? 0)%nat && (get_block_pos Legacy (b_core r) <? 4)) = straddles g i.
Proof.
  intros (Hsl & Hsb & Hs & P & Eg & H1 & c & HA) Hb Hi. pose proof (offset_i r i Hb Hi) as Ew.
  pose proof (offset_cases n (g_seed g) r (g_stream g) P c HA H1) as Ho. destruct HA as (Hc & _).
  unfold straddles. destruct (Nat.eqb_spec (word_offset r) 0) as [E|E]; destruct (N.eqb_spec i 0) as [E'|E']; [reflexivity|exfalso; lia|exfalso; lia|].
  cbn [negb andb]. rewrite Hc. unfold K. rewrite get_pos_mk by exact Hsl. cbn [ctr_mod].
  assert (Ep : g_pos g = P mod 2 ^ 68) by (rewrite Eg; reflexivity). rewrite Ep.
  destruct Ho as [[E2 _] | (E2 & Hi' & HP & H4)]; [contradiction|].
  change (2 ^ 68) with (16 * M64). destruct (N.ltb_spec (c mod M64) 4); destruct (N.ltb_spec ((P mod (16 * M64) + 64 - i) mod (16 * M64)) 64); try reflexivity; lia.
Qed.
Lemma checked_run cf pc n : forall h r g i, Rel n r g -> bi r -> full r -> at_i r i -> Forall rop_ok h ->
  match rg_checked n g i h with
  | Some xs => exists r', rng_run (rng_gen cf pc n) true r h = Ok (xs, r')
  | None => rng_run (rng_gen cf pc n) true r h = Panic
  end.
Proof.
  induction h as [|o h IH]; intros r g i HR Hb Hf Hi Hok; cbn [rg_checked rng_run]; [eauto|].
  inversion Hok as [|? ? Ho Hok']; subst.
  assert (Hs := straddle_ok n r g i HR Hb Hi).
  destruct (match o with GetBlockPos => straddles g i | _ => false end) eqn:Ep.
  - destruct o; try discriminate Ep. cbn [rng_step].
    destruct HR as (Hsl & Hsb & Hst & P & Eg & HR). rewrite (get_block_pos_ok cf pc n _ Hsl Hsb true r _ P HR).
    rewrite Hs, Ep. reflexivity.
  - destruct (rel_step cf pc true n r g o HR Ho) as [(E & -> & _) | (r1 & E & HR1)].
    + exfalso. cbn [rng_step] in E. destruct HR as (Hsl & Hsb & Hst & P & Eg & HR).
      rewrite (get_block_pos_ok cf pc n _ Hsl Hsb true r _ P HR), Hs, Ep in E. discriminate E.
    + destruct (step_i cf pc n true r i o _ r1 Hb Hf Hi Ho E) as (Hb1 & Hf1 & Hi1).
      rewrite E. cbn [bind]. destruct (rg_step n g o) as [x g1]. cbn [fst snd] in *.
      specialize (IH r1 g1 (handed o i) HR1 Hb1 Hf1 Hi1 Hok'). destruct (rg_checked n g1 (handed o i) h) as [xs|].
      * destruct IH as (r2 & E2). rewrite E2. cbn [bind]. eauto.
      * rewrite IH. reflexivity.
Qed.

(** *** Every history, with overflow checks *)
Theorem C26_history n c p seed h : octets 32 seed -> Forall rop_ok h ->
  exists r, rng_from_seed seed = Ok r /\
  match rg_checked n (fresh seed) 0 h with
  | Some xs => exists r', rng_run (rng_gen c p n) true r h = Ok (xs, r')
  | None => rng_run (rng_gen c p n) true r h = Panic
  end.
Proof.
  intros [Hl Hb] Hok. destruct (rel_from_seed c p n seed Hl Hb) as (r & E & HR). exists r. split; [exact E|].
  unfold rng_from_seed in E. rewrite new_internal_ok in E by (try assumption; try reflexivity; repeat constructor).
  cbn [bind] in E. injection E as <-.
  apply checked_run; try assumption.
  - unfold bi, b_new, BUFFER_SIZE. cbn [b_idx]. lia.
  - split; [apply mk_state_wf; try assumption; try reflexivity; repeat constructor|]. unfold b_new, BUFFER_SIZE. cbn [b_idx]. lia.
  - reflexivity.
Qed.
Print Assumptions C26_history.
(** A history that does not panic answers exactly as without overflow checks. *)
Theorem C26_answers n g i h xs : rg_checked n g i h = Some xs -> xs = fst (rg_run n g h).
Proof.
  revert g i xs. induction h as [|o h IH]; intros g i xs; cbn [rg_checked rg_run]; [intros E; injection E as <-; reflexivity|].
  destruct (match o with GetBlockPos => straddles g i | _ => false end); [discriminate|].
  destruct (rg_step n g o) as [x g1]. destruct (rg_checked n g1 (handed o i) h) as [ys|] eqn:E; [|discriminate].
  intros E2. injection E2 as <-. apply IH in E. destruct (rg_run n g1 h). cbn [fst] in *. subst. reflexivity.
Qed.
Print Assumptions C26_answers.
(** From any reachable state, [i] being what [BlockRng::word_offset] tells. *)
Lemma deserialize_i cf pc n seed st pos r : length seed = 32%nat -> bytes seed -> length st = 8%nat -> bytes st -> length pos = 9%nat ->
  deserialize_state (rng_gen cf pc n) (seed ++ st ++ pos) = Ok r -> bi r /\ full r /\ at_i r (rg_int pos mod 16).
Proof.
  intros Hsl Hsb Htl Htb Hpl. unfold deserialize_state. cbv zeta.
  rewrite firstn_app_len by exact Hsl. rewrite (skipn_app_len seed) by exact Hsl. rewrite firstn_app_len by exact Htl.
  replace (skipn 40 (seed ++ st ++ pos)) with pos by (rewrite app_assoc, skipn_app_len; [reflexivity | rewrite app_length; lia]).
  rewrite Hsl, Htl, Hpl. cbn [Nat.eqb andb assert_ bind]. rewrite new_internal_ok by assumption. cbn [bind].
  rewrite from_le_zeros, <- rg_int_eq. unfold rng_set_word_pos, BLOCK_WORDS. cbv zeta. intros E. apply reset_i in E.
  - rewrite N2Nat.id in E. exact E.
  - unfold b_new. cbn [b_core]. repeat apply upd_wf; try lia; try (unfold as_u32; apply N.mod_lt; discriminate).
    apply mk_state_wf; assumption.
  - pose proof (N.mod_lt (rg_int pos) 16 ltac:(discriminate)). lia.
Qed.
Lemma reach_inv n r : reachable n r -> bi r /\ full r.
Proof.
  intros H. induction H as [seed r [Hl Hb] E | c p a r Ha E | c p ck r o x r' H IH Ho E].
  - unfold rng_from_seed in E. rewrite new_internal_ok in E by (try assumption; try reflexivity; repeat constructor).
    cbn [bind] in E. injection E as <-. unfold bi, full, b_new, BUFFER_SIZE. cbn [b_idx b_core]. split; [lia|]. split; [|lia].
    apply mk_state_wf; try assumption; try reflexivity; repeat constructor.
  - destruct (split49 a Ha) as (seed & st & pos & -> & Hsl & Hsb & Htl & Htb & Hpl & Hpb).
    apply deserialize_i in E; try assumption. tauto.
  - destruct IH as [Hb Hf]. destruct (step_i c p n ck r _ o x r' Hb Hf eq_refl Ho E) as (A & B & _). auto.
Qed.
Theorem C26_reachable n c p r h : reachable n r -> Forall rop_ok h ->
  match rg_checked n (at_ r) (N.of_nat (word_offset r)) h with
  | Some xs => exists r', rng_run (rng_gen c p n) true r h = Ok (xs, r')
  | None => rng_run (rng_gen c p n) true r h = Panic
  end.
Proof.
  intros H Hok. destruct (reach_inv n r H) as [Hb Hf]. apply checked_run; try assumption; [apply reach_rel, H|].
  rewrite (offset_i r _ Hb eq_refl). reflexivity.
Qed.
Print Assumptions C26_reachable.
(** A restored copy has handed out only the words of the block it stands in. *)
Theorem C29_restored_offset n c p ck r a r' : reachable n r -> serialize_state ck r = Ok a -> deserialize_state (rng_gen c p n) a = Ok r' ->
  N.of_nat (word_offset r') = get_word_pos r mod 16 /\ at_ r' = at_ r.
Proof.
  intros H Ea E. destruct (C29_round_trip n c p cf0 pc0 ck false r H) as (a1 & r1 & Ea1 & E1 & Heq & _).
  rewrite Ea in Ea1. injection Ea1 as <-. rewrite E in E1. injection E1 as <-.
  destruct (C29_layout n ck r H) as [EL Ho]. assert (EL' : a = get_seed r ++ rg_le 8 (get_stream r) ++ rg_le 9 (get_word_pos r)) by congruence. subst a. clear EL.
  assert (H' : reachable n r') by (eapply R_deserialize; eassumption).
  split; [|symmetry; apply (C30_equality n r r' H H'), Heq].
  pose proof (reach_rel n r H) as (Hsl & Hsb & Hs & _). cbn [at_ g_seed g_stream] in *.
  apply deserialize_i in E; try assumption; try apply rg_le_length; try apply bytes_rg_le. destruct E as (Hb & _ & E).
  rewrite (offset_i r' _ Hb E), rg_int_le; [reflexivity|]. transitivity (2 ^ 68); [apply (reach_pos n r H) | reflexivity].
Qed.
Print Assumptions C29_restored_offset.
(** Equal generators that have handed out equally much of their buffers cannot be told
    apart at all, overflow checks included. *)
Theorem C30_same_offset n c p c' p' r r' h : reachable n r -> reachable n r' -> rng_eq r r' = true -> word_offset r = word_offset r' ->
  Forall rop_ok h ->
  (exists xs q q', rng_run (rng_gen c p n) true r h = Ok (xs, q) /\ rng_run (rng_gen c' p' n) true r' h = Ok (xs, q'))
  \/ (rng_run (rng_gen c p n) true r h = Panic /\ rng_run (rng_gen c' p' n) true r' h = Panic).
Proof.
  intros H H' He Hw Hok. apply (C30_equality n r r' H H') in He.
  pose proof (C26_reachable n c p r h H Hok) as A. pose proof (C26_reachable n c' p' r' h H' Hok) as B.
  rewrite He, Hw in A. destruct (rg_checked n (at_ r') (N.of_nat (word_offset r')) h) as [xs|]; [|auto].
  destruct A as [q A], B as [q' B]. left. eauto 6.
Qed.
Print Assumptions C30_same_offset.
(** The wrap itself is harmless: four blocks later the call is answered again. *)
Example C26_history_satisfiable : octets 32 ex_key
  /\ Forall rop_ok [Fill 256; GetBlockPos; SetBlockPos (2 ^ 64 - 1); GetBlockPos; Fill 320; GetBlockPos]
  /\ rg_checked 0 (fresh ex_key) 0 [SetBlockPos (2 ^ 64 - 1); Fill 252; GetBlockPos] = None
  /\ match rg_checked 0 (fresh ex_key) 0 [Fill 256; GetBlockPos; SetBlockPos (2 ^ 64 - 1); GetBlockPos; Fill 320; GetBlockPos] with
     | Some [_; Num 4; Unit; Num b; _; Num 4] => b = 2 ^ 64 - 1
     | _ => False
     end.
Proof.
  split; [checks|]. split; [repeat constructor|]. split; [vm_compute; reflexivity|]. vm_compute. reflexivity.
Qed.
