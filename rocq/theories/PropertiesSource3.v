(** Final theorem C96: the source text of the ChaCha generators' methods, parsed and executed,
    is the model, and so answers as the generators of the specification. *)
From Coq Require Import String.
From Verif Require Import Word WordLemmas Res Hex PropCommon SpecChaCha SpecRng ChaChaProofs RngProofs PropertiesRng PropertiesRngExact
  BlockRng ChaChaRng RustPrograms RustLemmas RustRngText RustRng RustRng2 RustRng3 RustRng4 PropertiesSource.
From Coq Require Import ZArith Lia ZifyBool ZifyNat ZifyN.
Local Open Scope string_scope.
Local Open Scope N_scope.
Local Open Scope list_scope.
Local Notation length := List.length.

(** One call made of the text: the answer and the generator after it. *)
Definition text_num (m : X (val * list val)) : X (rret * val) :=
  let! (v, args) := m in
  match v, args with
  | VInt _ x, [self] => XOk (Num x, self)
  | VCon "Ok" [VInt _ x], [self] => XOk (Num x, self)
  | VArr U8 l, [self] => XOk (Buf l, self)
  | _, _ => XStuck
  end.
Definition text_unit (m : X (val * list val)) : X (rret * val) :=
  let! (v, args) := m in match v, args with VTup [], self :: _ => XOk (Unit, self) | _, _ => XStuck end.
Definition text_fill (m : X (val * list val)) : X (rret * val) :=
  let! (v, args) := m in match v, args with VCon "Ok" [VTup []], [self; VArr U8 l] => XOk (Buf l, self) | _, _ => XStuck end.
(** [old n]: what a buffer of [n] bytes to fill holds before. *)
Definition text_step (run : caller) (old : nat -> list N) (self : val) (o : rop) : X (rret * val) :=
  match o with
  | NextU32 => text_num (run "ChaCha20Rng::try_next_u32" [self])
  | NextU64 => text_num (run "ChaCha20Rng::try_next_u64" [self])
  | GetWordPos => text_num (run "ChaCha20Rng::get_word_pos" [self])
  | SetWordPos p => text_unit (run "ChaCha20Rng::set_word_pos" [self; VInt U128 p])
  | GetBlockPos => text_num (run "ChaCha20Rng::get_block_pos" [self])
  | SetBlockPos b => text_unit (run "ChaCha20Rng::set_block_pos" [self; VInt U64 b])
  | GetStream => text_num (run "ChaCha20Rng::get_stream" [self])
  | SetStream s => text_unit (run "ChaCha20Rng::set_stream" [self; VInt U64 s])
  | GetSeed => text_num (run "ChaCha20Rng::get_seed" [self])
  | Fill n => text_fill (run "ChaCha20Rng::try_fill_bytes" [self; VArr U8 (old n)])
  | Serialize => text_num (run "ChaCha20Rng::serialize_state" [self])
  end.
Fixpoint text_steps (run : caller) (old : nat -> list N) (self : val) (h : list rop) : X (list rret * val) :=
  match h with
  | [] => XOk ([], self)
  | o :: h => let! (x, self) := text_step run old self o in let! (xs, self) := text_steps run old self h in XOk (x :: xs, self)
  end.
(** A generator from a seed, then the calls. *)
Definition text_rng (run : caller) (old : nat -> list N) (seed : list N) (h : list rop) : X (list rret) :=
  let! (self, _) := run "ChaCha20Rng::from_seed" [VArr U8 seed] in let! (xs, _) := text_steps run old self h in XOk xs.

Lemma fuel3_ fuel : (3 <= fuel)%nat -> exists d, fuel = S (S (S d)).
Proof. intros H. destruct fuel as [|[|[|d]]]; [lia..|]. exists d. reflexivity. Qed.
Lemma rel_core n r g : Rel n r g -> core_ok (b_core r) /\ (b_idx r <= 64)%nat.
Proof.
  intros H. split; [exact (rel_wf n r g H)|]. destruct H as (_ & _ & _ & P & _ & _ & c & _ & Hi & _). exact Hi.
Qed.
Definition sized (old : nat -> list N) : Prop := forall k, length (old k) = k.
Lemma text_step_ok ck usz n d old r g o : In usz pointer_widths -> sized old -> Rel (N.to_nat n) r g ->
  text_step (run_rng ck usz n (S (S (S d)))) old (rng_val r) o =
  match rng_step (soft n) ck r o with Ok (x, r') => XOk (x, rng_val r') | Panic => XPanic end.
Proof.
  intros U O HR. destruct (rel_core _ _ _ HR) as [C L].
  destruct o; cbn [text_step rng_step] in *.
  - rewrite src_next_u32 by assumption. destruct (next_word (soft n) r). reflexivity.
  - rewrite src_next_u64 by assumption. destruct (next_u64 (soft n) r). reflexivity.
  - rewrite src_fill by assumption. rewrite O. destruct (fill_bytes (soft n) r n0). reflexivity.
  - rewrite src_get_word_pos by assumption. reflexivity.
  - rewrite src_set_word_pos by assumption. destruct (rng_set_word_pos (soft n) r p); reflexivity.
  - rewrite src_rng_get_block_pos by assumption. destruct (rng_get_block_pos ck r); reflexivity.
  - rewrite src_rng_set_block_pos by (try assumption; left; reflexivity). destruct (rng_set_block_pos (soft n) r b); reflexivity.
  - rewrite src_get_stream by assumption. reflexivity.
  - rewrite src_set_stream by assumption. destruct (set_stream (soft n) r s); reflexivity.
  - rewrite src_get_seed by assumption. reflexivity.
  - rewrite src_serialize by assumption. destruct (serialize_state ck r); reflexivity.
Qed.
Lemma text_steps_ok ck usz n d old h : In usz pointer_widths -> sized old -> Forall rop_ok h -> forall r g, Rel (N.to_nat n) r g ->
  text_steps (run_rng ck usz n (S (S (S d)))) old (rng_val r) h =
  match rng_run (rng_gen cf0 pc0 (N.to_nat n)) ck r h with Ok (xs, r') => XOk (xs, rng_val r') | Panic => XPanic end.
Proof.
  intros U O. change (rng_gen cf0 pc0 (N.to_nat n)) with (soft n).
  induction h as [|o h IH]; intros Hok r g HR; cbn [text_steps rng_run]; [reflexivity|].
  inversion Hok as [|? ? Ho Hok']. subst.
  rewrite (text_step_ok ck usz n d old r g o U O HR).
  pose proof (rel_step cf0 pc0 ck (N.to_nat n) r g o HR Ho) as RS. change (rng_gen cf0 pc0 (N.to_nat n)) with (soft n) in RS.
  destruct RS as [(E & _)|(r' & E & HR')]; rewrite E; [reflexivity|]. cbn [bind]. rewrite xbind_ok. cbv beta iota.
  rewrite (IH Hok' r' _ HR'). destruct (rng_run (soft n) ck r' h) as [[xs r2]|]; reflexivity.
Qed.
Lemma text_rng_ok ck usz n fuel old seed h : In usz pointer_widths -> (3 <= fuel)%nat -> sized old -> octets 32 seed -> Forall rop_ok h ->
  exists r, rng_from_seed seed = Ok r /\
  text_rng (run_rng ck usz n fuel) old seed h = match rng_run (rng_gen cf0 pc0 (N.to_nat n)) ck r h with Ok (xs, _) => XOk xs | Panic => XPanic end.
Proof.
  intros U F O [Hl Hb] Hok. destruct (fuel3_ fuel F) as [d ->]. destruct (rel_from_seed cf0 pc0 (N.to_nat n) seed Hl Hb) as (r & E & HR).
  exists r. split; [exact E|]. unfold text_rng. rewrite src_from_seed by exact Hl. rewrite E. rewrite xbind_ok. cbv beta iota.
  rewrite (text_steps_ok ck usz n d old h U O Hok r _ HR). destruct (rng_run _ ck r h) as [[xs r']|]; reflexivity.
Qed.

(** Without overflow checks, or without [get_block_pos], every history of calls made of the text
    gets the answers of a position in one of the 2^64 streams of 2^68 words, and never panics. *)
Theorem C96_history ck usz n fuel old seed h : In usz pointer_widths -> (3 <= fuel)%nat -> sized old -> octets 32 seed -> Forall rop_ok h ->
  ck = false \/ no_gbp h ->
  text_rng (run_rng ck usz n fuel) old seed h = XOk (fst (rg_run (N.to_nat n) (fresh seed) h)).
Proof.
  intros U F O Hs Hok Hck. destruct (text_rng_ok ck usz n fuel old seed h U F O Hs Hok) as (r & E & ->).
  destruct (C21_history (N.to_nat n) cf0 pc0 ck seed h Hs Hok Hck) as (r0 & r' & E0 & E'). rewrite E in E0. injection E0 as <-. rewrite E'. reflexivity.
Qed.
Print Assumptions C96_history.
(** With overflow checks: the history that asks for the block while the buffer straddles the
    end of the stream panics, in the text as written; every other gets the answers of the
    specification. *)
Theorem C96_checked usz n fuel old seed h : In usz pointer_widths -> (3 <= fuel)%nat -> sized old -> octets 32 seed -> Forall rop_ok h ->
  text_rng (run_rng true usz n fuel) old seed h =
  match rg_checked (N.to_nat n) (fresh seed) 0 h with Some xs => XOk xs | None => XPanic end.
Proof.
  intros U F O Hs Hok. destruct (text_rng_ok true usz n fuel old seed h U F O Hs Hok) as (r & E & ->).
  destruct (C26_history (N.to_nat n) cf0 pc0 seed h Hs Hok) as (r0 & E0 & H). rewrite E in E0. injection E0 as <-.
  destruct (rg_checked (N.to_nat n) (fresh seed) 0 h) as [xs|]; [destruct H as (r' & ->)|rewrite H]; reflexivity.
Qed.
Print Assumptions C96_checked.
(** The macro's three expansions [rng.rs:342-344] are the same functions under three names. *)
Definition retyped (name : string) (t : ty) : ty :=
  match t with TyRef false (TyPath [x]) => if (x =? "ChaCha20Rng")%string then TyRef false (TyPath [name]) else t | _ => t end.
Definition renamed (name : string) (f : fn) : fn :=
  Fn name (f_name f) (f_self f) (map (fun p => (fst p, retyped name (snd p))) (f_params f)) (f_ret f) (f_body f).
Theorem C96_family name rounds : In (name, rounds) [("ChaCha8Rng", "R8"); ("ChaCha12Rng", "R12"); ("ChaCha20Rng", "R20")] ->
  fns (items_of (expand_rng name rounds)) = map (renamed name) rng_fns.
Proof. intros [E|[E|[E|[]]]]; injection E as <- <-; vm_compute; reflexivity. Qed.
Print Assumptions C96_family.

(** The last word of stream 7 and the first, five bytes written over old ones, the serialised
    state, and two histories around the end of the stream: one that panics, one that does not. *)
Example C96_satisfiable : In 32 pointer_widths /\ octets 32 (repeat 3 32) /\ sized (repeat 255) /\
  let h := [SetStream 7; SetWordPos (2 ^ 68 - 1); NextU64; GetWordPos; GetStream; GetSeed; SetBlockPos 5; GetBlockPos; NextU32; Fill 5; Serialize] in
  let h' := [SetWordPos (2 ^ 68 - 15); GetBlockPos] in
  let w := rg_word 4 (repeat 3 32) 7 in
  Forall rop_ok h /\ no_gbp [SetStream 7; NextU32] /\
  text_rng (run_rng true 32 4 3) (repeat 255) (repeat 3 32) h =
  XOk [Unit; Unit; Num (w (2 ^ 68 - 1) + 2 ^ 32 * w 0); Num 1; Num 7; Buf (repeat 3 32); Unit; Num 5; Num (w 80);
       Buf (rg_le 4 (w 81) ++ rg_le 1 (w 82)); Buf (repeat 3 32 ++ [7; 0; 0; 0; 0; 0; 0; 0] ++ [83; 0; 0; 0; 0; 0; 0; 0; 0])] /\
  text_rng (run_rng true 32 4 3) (repeat 255) (repeat 3 32) h' = XPanic /\
  text_rng (run_rng false 32 4 3) (repeat 255) (repeat 3 32) h' = XOk [Unit; Num (2 ^ 64 - 1)].
Proof.
  assert (U : In 32 pointer_widths) by (right; left; reflexivity).
  assert (K : octets 32 (repeat 3 32)) by (apply octets_check; vm_compute; reflexivity).
  assert (O : sized (repeat 255)) by (intros k; apply repeat_length).
  split; [exact U|]. split; [exact K|]. split; [exact O|]. intros h h' w.
  assert (H1 : Forall rop_ok h) by (repeat constructor).
  assert (H1' : Forall rop_ok h') by (repeat constructor).
  split; [exact H1|]. split; [repeat constructor; discriminate|]. split; [|split].
  - rewrite C96_checked by (try assumption; lia). vm_compute. reflexivity.
  - rewrite C96_checked by (try assumption; lia). vm_compute. reflexivity.
  - rewrite C96_history by (try assumption; try lia; left; reflexivity). vm_compute. reflexivity.
Qed.
