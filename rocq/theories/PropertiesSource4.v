(** Final theorem C97: the source text of the ChaCha generators' serialisation and comparison,
    parsed and executed. *)
From Coq Require Import String.
From Verif Require Import ChaChaDispatchProofs Word WordLemmas Res Hex PropCommon SpecChaCha SpecRng ChaChaProofs RngProofs PropertiesRng PropertiesRngExact
  BlockRng ChaChaRng RustPrograms RustLemmas RustRngText RustRng RustRng2 RustRng3 RustRng4 RustRng5 PropertiesSource PropertiesSource3.
From Coq Require Import ZArith Lia ZifyBool ZifyNat ZifyN.
Local Open Scope string_scope.
Local Open Scope N_scope.
Local Open Scope list_scope.
Local Notation length := List.length.

(** Where a generator comes from: a seed, or 49 bytes of state; and where that is. *)
Inductive origin := Seed (l : list N) | State (l : list N).
Definition origin_ok (s : origin) : Prop := match s with Seed l => octets 32 l | State l => octets 49 l end.
Definition origin_at (s : origin) : rg :=
  match s with
  | Seed l => {| g_seed := l; g_stream := 0; g_pos := 0 |}
  | State l => {| g_seed := firstn 32 l; g_stream := rg_int (firstn 8 (skipn 32 l)); g_pos := rg_int (skipn 40 l) mod 2 ^ 68 |}
  end.
(** The generator the text makes of it, and after a history of calls. *)
Definition text_origin (run : caller) (s : origin) : X val :=
  let! (self, _) := match s with
                    | Seed l => run "ChaCha20Rng::from_seed" [VArr U8 l]
                    | State l => run "ChaCha20Rng::deserialize_state" [VArr U8 l]
                    end in XOk self.
Definition text_from (run : caller) (old : nat -> list N) (s : origin) (h : list rop) : X (list rret * val) :=
  let! self := text_origin run s in text_steps run old self h.
(** [==] on two generators. *)
Definition text_eq (run : caller) (a b : val) : X bool :=
  let! (v, _) := run "ChaCha20Rng::eq" [a; b] in match v with VBool b => XOk b | _ => XStuck end.

Lemma origin_rel ck usz n d s : In usz pointer_widths -> origin_ok s ->
  exists r, text_origin (run_rng ck usz n (S (S (S d)))) s = XOk (rng_val r) /\ Rel (N.to_nat n) r (origin_at s).
Proof.
  intros U H. destruct s as [l|l]; unfold text_origin; cbn [origin_ok origin_at] in *.
  - destruct H as [Hl Hb]. destruct (rel_from_seed cf0 pc0 (N.to_nat n) l Hl Hb) as (r & E & HR). exists r. split; [|exact HR].
    rewrite src_from_seed by exact Hl. rewrite E. reflexivity.
  - destruct (split49 l H) as (seed & st & pos & E0 & Hsl & Hsb & Htl & Htb & Hpl & Hpb).
    destruct (rel_deserialize cf0 pc0 (N.to_nat n) seed st pos Hsl Hsb Htl Htb Hpl) as (r & E & HR). rewrite <- E0 in E. exists r. split.
    + rewrite src_deserialize by (exact U || apply H). change (soft n) with (rng_gen cf0 pc0 (N.to_nat n)). rewrite E. reflexivity.
    + rewrite E0. rewrite firstn_app_len by exact Hsl. rewrite (skipn_app_len seed) by exact Hsl. rewrite firstn_app_len by exact Htl.
      replace (skipn 40 (seed ++ st ++ pos)) with pos by (rewrite app_assoc, skipn_app_len; [reflexivity | rewrite app_length; lia]). exact HR.
Qed.
Lemma from_rel ck usz n fuel old s h : In usz pointer_widths -> (3 <= fuel)%nat -> sized old -> origin_ok s -> Forall rop_ok h -> ck = false \/ no_gbp h ->
  exists r, text_from (run_rng ck usz n fuel) old s h = XOk (fst (rg_run (N.to_nat n) (origin_at s) h), rng_val r)
  /\ Rel (N.to_nat n) r (snd (rg_run (N.to_nat n) (origin_at s) h)).
Proof.
  intros U F O Hs Hok Hck. destruct (fuel3_ fuel F) as [d ->]. destruct (origin_rel ck usz n d s U Hs) as (r & E & HR).
  destruct (rel_run cf0 pc0 ck (N.to_nat n) h r _ HR Hok Hck) as (r' & E' & HR'). exists r'. split; [|exact HR'].
  unfold text_from. rewrite E, xbind_ok. rewrite (text_steps_ok ck usz n d old h U O Hok r _ HR). rewrite E'. reflexivity.
Qed.

(** Every history of calls on a generator restored from any 49 bytes gets the answers of the
    position they encode. *)
Theorem C97_state ck usz n fuel old a h : In usz pointer_widths -> (3 <= fuel)%nat -> sized old -> octets 49 a -> Forall rop_ok h ->
  ck = false \/ no_gbp h ->
  exists self, text_from (run_rng ck usz n fuel) old (State a) h
    = XOk (fst (rg_run (N.to_nat n) {| g_seed := firstn 32 a; g_stream := rg_int (firstn 8 (skipn 32 a)); g_pos := rg_int (skipn 40 a) mod 2 ^ 68 |} h), self).
Proof.
  intros U F O Ha Hok Hck. destruct (from_rel ck usz n fuel old (State a) h U F O Ha Hok Hck) as (r & E & _). exists (rng_val r). exact E.
Qed.
Print Assumptions C97_state.
(** [==] of the text says whether two generators, however obtained and used, stand at the same
    word of the same stream of the same seed. *)
Theorem C97_equal ck usz n fuel old s s' h h' : In usz pointer_widths -> (3 <= fuel)%nat -> sized old -> origin_ok s -> origin_ok s' ->
  Forall rop_ok h -> Forall rop_ok h' -> ck = false \/ no_gbp h /\ no_gbp h' ->
  exists xs xs' a b c, text_from (run_rng ck usz n fuel) old s h = XOk (xs, a) /\ text_from (run_rng ck usz n fuel) old s' h' = XOk (xs', b)
  /\ text_eq (run_rng ck usz n fuel) a b = XOk c
  /\ (c = true <-> snd (rg_run (N.to_nat n) (origin_at s) h) = snd (rg_run (N.to_nat n) (origin_at s') h')).
Proof.
  intros U F O Hs Hs' Hok Hok' Hck.
  assert (K : ck = false \/ no_gbp h) by tauto. assert (K' : ck = false \/ no_gbp h') by tauto.
  destruct (from_rel ck usz n fuel old s h U F O Hs Hok K) as (r & E & HR). destruct (from_rel ck usz n fuel old s' h' U F O Hs' Hok' K') as (r' & E' & HR').
  eexists _, _, _, _, (rng_eq r r'). split; [exact E|]. split; [exact E'|].
  destruct (rel_core _ _ _ HR) as [C L]. destruct (rel_core _ _ _ HR') as [C' L']. destruct (fuel3_ fuel F) as [d ->]. split.
  - unfold text_eq. rewrite src_eq by assumption. reflexivity.
  - apply (rng_eq_spec cf0 pc0 (N.to_nat n) r _ r' _ HR HR').
Qed.
Print Assumptions C97_equal.
Lemma rg_run_app n h h' : forall g, fst (rg_run n g (h ++ h')) = fst (rg_run n g h) ++ fst (rg_run n (snd (rg_run n g h)) h')
  /\ snd (rg_run n g (h ++ h')) = snd (rg_run n (snd (rg_run n g h)) h').
Proof.
  induction h as [|o h IH]; intros g; cbn [app rg_run]; [split; reflexivity|]. destruct (rg_step n g o) as [x g1]. destruct (IH g1) as [E1 E2]. revert E1 E2.
  destruct (rg_run n g1 (h ++ h')) as [a b]. destruct (rg_run n g1 h) as [a' b']. cbn [fst snd]. intros -> ->. split; reflexivity.
Qed.
Definition state_bytes (g : rg) : list N := g_seed g ++ rg_le 8 (g_stream g) ++ rg_le 9 (g_pos g).
Lemma state_origin n r g : Rel n r g -> octets 49 (state_bytes g) /\ origin_at (State (state_bytes g)) = g.
Proof.
  intros HR. destruct HR as (Hsl & Hsb & Hs & P & Eg & _). 
  assert (Hp : g_pos g < 2 ^ 68) by (rewrite Eg; apply N.mod_lt; discriminate). clear Eg P.
  unfold state_bytes. split.
  - split; [rewrite !app_length, !rg_le_length, Hsl; reflexivity|]. apply Forall_app. split; [exact Hsb|]. apply Forall_app. split; apply bytes_rg_le.
  - cbn [origin_at]. rewrite firstn_app_len by exact Hsl. rewrite (skipn_app_len (g_seed g)) by exact Hsl. rewrite firstn_app_len by apply rg_le_length.
    replace (skipn 40 (g_seed g ++ rg_le 8 (g_stream g) ++ rg_le 9 (g_pos g))) with (rg_le 9 (g_pos g))
      by (rewrite app_assoc, skipn_app_len; [reflexivity | rewrite app_length, rg_le_length; lia]).
    rewrite !rg_int_le by first [exact Hs | transitivity (2 ^ 68); [exact Hp | reflexivity]]. rewrite N.mod_small by exact Hp. destruct g; reflexivity.
Qed.
(** A copy through [serialize_state] and [deserialize_state] of the text gets the answers the
    original gets to any further calls, and compares equal to it after them. *)
Theorem C97_copy ck usz n fuel old s h h' : In usz pointer_widths -> (3 <= fuel)%nat -> sized old -> origin_ok s -> Forall rop_ok h -> Forall rop_ok h' ->
  ck = false \/ no_gbp h /\ no_gbp h' ->
  exists xs a self ys b c, text_from (run_rng ck usz n fuel) old s (h ++ [Serialize]) = XOk (xs ++ [Buf a], self) /\ octets 49 a
  /\ text_from (run_rng ck usz n fuel) old s (h ++ h') = XOk (xs ++ ys, b)
  /\ text_from (run_rng ck usz n fuel) old (State a) h' = XOk (ys, c)
  /\ text_eq (run_rng ck usz n fuel) b c = XOk true.
Proof.
  intros U F O Hs Hok Hok' Hck.
  assert (A1 : Forall rop_ok (h ++ [Serialize])) by (apply Forall_app; split; [exact Hok|repeat constructor]).
  assert (A2 : Forall rop_ok (h ++ h')) by (apply Forall_app; split; assumption).
  assert (K : ck = false \/ no_gbp h) by tauto. assert (K' : ck = false \/ no_gbp h') by tauto.
  assert (K1 : ck = false \/ no_gbp (h ++ [Serialize])).
  { destruct K as [K|K]; [left; exact K|right]. apply Forall_app. split; [exact K|repeat constructor; discriminate]. }
  assert (K2 : ck = false \/ no_gbp (h ++ h')) by (destruct Hck as [K0|[K0 K0']]; [left; exact K0|right; apply Forall_app; split; assumption]).
  destruct (from_rel ck usz n fuel old s h U F O Hs Hok K) as (r0 & _ & HR0).
  destruct (from_rel ck usz n fuel old s _ U F O Hs A1 K1) as (r1 & E1 & _).
  destruct (from_rel ck usz n fuel old s _ U F O Hs A2 K2) as (r2 & E2 & HR2).
  destruct (rg_run_app (N.to_nat n) h [Serialize] (origin_at s)) as [X1 _]. rewrite X1 in E1. clear X1.
  destruct (rg_run_app (N.to_nat n) h h' (origin_at s)) as [X2 Y2]. rewrite X2 in E2. rewrite Y2 in HR2. clear X2 Y2.
  generalize dependent (snd (rg_run (N.to_nat n) (origin_at s) h)). intros g HR0 E1 E2 HR2.
  destruct (state_origin _ _ _ HR0) as [Ha Eo].
  destruct (from_rel ck usz n fuel old (State (state_bytes g)) h' U F O Ha Hok' K') as (r3 & E3 & HR3). rewrite Eo in E3, HR3.
  eexists _, (state_bytes g), _, _, _, _. split; [exact E1|]. split; [exact Ha|]. split; [exact E2|]. split; [exact E3|].
  destruct (rel_core _ _ _ HR2) as [C L]. destruct (rel_core _ _ _ HR3) as [C' L']. destruct (fuel3_ fuel F) as [d ->].
  unfold text_eq. rewrite src_eq by assumption. rewrite xbind_ok. cbv beta iota. f_equal.
  apply (rng_eq_spec cf0 pc0 (N.to_nat n) r2 _ r3 _ HR2 HR3). reflexivity.
Qed.
Print Assumptions C97_copy.

(** A state of 49 bytes whose position lies above 2^68: what the text answers from it, and that
    it equals the state with the excess removed but not the one a word further. *)
Example C97_satisfiable : let a := repeat 3 32 ++ [9; 0; 0; 0; 0; 0; 0; 0] ++ [16; 0; 0; 0; 0; 0; 0; 0; 48] in
  let h := [GetStream; GetWordPos; NextU32; Serialize] in
  In 64 pointer_widths /\ sized (repeat 0) /\ octets 49 a /\ Forall rop_ok h /\ no_gbp h /\
  (exists self, text_from (run_rng true 64 4 3) (repeat 0) (State a) h =
   XOk ([Num 9; Num 16; Num (rg_word 4 (repeat 3 32) 9 16); Buf (repeat 3 32 ++ [9; 0; 0; 0; 0; 0; 0; 0] ++ [17; 0; 0; 0; 0; 0; 0; 0; 0])], self)) /\
  (let! b := text_origin (run_rng true 64 4 3) (State a) in
   let! (_, c) := text_from (run_rng true 64 4 3) (repeat 0) (Seed (repeat 3 32)) [SetStream 9; SetBlockPos 1] in
   let! (_, d) := text_from (run_rng true 64 4 3) (repeat 0) (Seed (repeat 3 32)) [SetStream 9; SetBlockPos 1; NextU32] in
   let! x := text_eq (run_rng true 64 4 3) b c in let! y := text_eq (run_rng true 64 4 3) b d in XOk (x, y)) = XOk (true, false).
Proof.
  intros a h.
  assert (U : In 64 pointer_widths) by (right; right; left; reflexivity).
  assert (O : sized (repeat 0)) by (intros k; apply repeat_length).
  assert (A : octets 49 a) by (apply octets_check; vm_compute; reflexivity).
  assert (H1 : Forall rop_ok h) by (repeat constructor). assert (H2 : no_gbp h) by (repeat constructor; discriminate).
  do 5 (split; [assumption|]). split.
  - destruct (C97_state true 64 4 3 (repeat 0) a h U (le_n 3) O A H1 (or_intror H2)) as (self & E). exists self. rewrite E. vm_compute. reflexivity.
  - vm_compute. reflexivity.
Qed.
