(** C52: every instruction the selected backend executes exists on the machine. *)
From Verif Require Import Isa.

(** Machine [m] can execute the intrinsics [l]. *)
Definition can_execute (m : machine) (l : list intrinsic) : Prop :=
  forall i, In i l -> forall e, In e (needs i) -> m e = true.

(** Full statement of C52 (false, see [C52_refuted_cipher] and [C52_refuted_rng]):
    [forall c m v, real m -> runs_on c m ->
       can_execute m (cipher_executes c (detect m) v)
       /\ can_execute m (rng_executes c (detect m) v)].
    Missing: the two exceptions, the SSE2 backend with a 64-bit counter and the SSE2
    generator, both on machines without SSE4.1. *)

Definition can_executeb (m : machine) (l : list intrinsic) : bool :=
  forallb (fun i => forallb m (needs i)) l.
Lemma can_executeb_spec m l : can_executeb m l = true <-> can_execute m l.
Proof.
  unfold can_executeb, can_execute. rewrite forallb_forall.
  split; intros H i Hi; specialize (H i Hi); [rewrite forallb_forall in H|rewrite forallb_forall]; assumption.
Qed.

Ltac machine_cases m :=
  destruct (m SSE2) eqn:?, (m SSSE3) eqn:?, (m SSE41) eqn:?, (m AVX) eqn:?, (m AVX2) eqn:?,
           (m AVX512F) eqn:?, (m AVX512VL) eqn:?; try (intuition discriminate).

(** What each backend needs. *)
Lemma sse2_exec m v : m SSE2 = true -> v = Ietf \/ m SSE41 = true -> can_execute m (isa_sse2_inner v).
Proof.
  intros H H'. apply can_executeb_spec. destruct v, H' as [H'|H']; try discriminate;
  cbn; rewrite H, ?H'; reflexivity.
Qed.
Lemma sse2_rng_exec m v : m SSE2 = true -> m SSE41 = true -> can_execute m (isa_sse2_rng_inner v).
Proof. intros H H'. apply can_executeb_spec. destruct v; cbn; rewrite H, ?H'; reflexivity. Qed.
Lemma avx2_exec m v : real m -> m AVX2 = true -> can_execute m (isa_avx2_inner v) /\ can_execute m isa_avx2_rng_inner.
Proof.
  intros (_ & _ & H3 & H4 & H5 & H6) H. assert (H' := H3 H). assert (H'' := H6 (H5 (H4 H'))).
  split; apply can_executeb_spec; [destruct v|]; cbn; rewrite H, H', H''; reflexivity.
Qed.
Lemma avx512_exec m v : real m -> m AVX512F = true -> m AVX512VL = true -> can_execute m (isa_avx512_inner v).
Proof.
  intros (_ & H2 & H3 & H4 & H5 & H6) H1 H0. assert (A2 := H2 H1). assert (A := H3 A2). assert (S4 := H4 A).
  assert (S := H6 (H5 S4)).
  apply can_executeb_spec; destruct v; cbn; rewrite H0, H1, A2, A, S4, S; reflexivity.
Qed.
Lemma neon_exec m : m NEON = true -> can_execute m isa_neon.
Proof. intros H. apply can_executeb_spec. cbn. rewrite H. reflexivity. Qed.
Lemma nothing_exec m : can_execute m [].
Proof. intros i []. Qed.

(** Which machines each choice is made on. *)
Lemma cipher_backend_on c m : real m -> runs_on c m ->
  match cipher_backend c (detect m) with
  | BSoft => True | BSse2 => m SSE2 = true | BAvx2 => m AVX2 = true
  | BAvx512 => m AVX512F = true /\ m AVX512VL = true | BNeon => m NEON = true
  end.
Proof.
  intros _ (Hc & Hb). unfold cipher_backend, build_requires, compiles, detect in *.
  cbn [has_avx512 has_avx2 has_sse2].
  destruct (c_backend c), (c_target c), (c_avx512 c); try discriminate; try exact I;
  repeat match goal with H : Forall _ (_ :: _) |- _ => inversion_clear H end; auto; cbn [andb];
  destruct (m AVX512F) eqn:?, (m AVX512VL) eqn:?, (m AVX2) eqn:?, (m SSE2) eqn:?; cbn [andb]; auto.
Qed.
Lemma rng_backend_on c m : real m -> runs_on c m ->
  match rng_backend c (detect m) with
  | BSse2 => m SSE2 = true | BAvx2 => m AVX2 = true | BNeon => m NEON = true | _ => True
  end.
Proof.
  intros (_ & H2 & _) (Hc & Hb). unfold rng_backend, build_requires, compiles, detect in *.
  cbn [has_avx512 has_avx2 has_sse2].
  destruct (c_backend c), (c_target c), (c_avx512 c); try discriminate; try exact I;
  repeat match goal with H : Forall _ (_ :: _) |- _ => inversion_clear H end; auto; cbn [andb];
  destruct (m AVX2) eqn:?, (m SSE2) eqn:?; cbn [andb]; auto.
Qed.

(** Everything but the two exceptions. *)
Theorem C52_cipher_partial c m v : real m -> runs_on c m ->
  (cipher_backend c (detect m) = BSse2 -> v = Legacy -> m SSE41 = true) ->
  can_execute m (cipher_executes c (detect m) v).
Proof.
  intros R B E. assert (H := cipher_backend_on c m R B). unfold cipher_executes.
  destruct (cipher_backend c (detect m)).
  - apply nothing_exec.
  - apply sse2_exec; [exact H|]. destruct v; [left; reflexivity|right; auto].
  - apply avx2_exec; assumption.
  - apply avx512_exec; tauto.
  - apply neon_exec; exact H.
Qed.
Theorem C52_rng_partial c m v : real m -> runs_on c m ->
  (rng_backend c (detect m) = BSse2 -> m SSE41 = true) ->
  can_execute m (rng_executes c (detect m) v).
Proof.
  intros R B E. assert (H := rng_backend_on c m R B). unfold rng_executes.
  destruct (rng_backend c (detect m)).
  - apply nothing_exec.
  - apply sse2_rng_exec; auto.
  - apply (avx2_exec m v); assumption.
  - apply nothing_exec.
  - apply neon_exec; exact H.
Qed.

(** The exceptions are exact: on a machine without SSE4.1, whenever the SSE2 backend is
    chosen, the generator and the 64-bit-counter cipher execute a missing instruction. *)
Theorem C52_exceptions c m v : m SSE41 = false ->
  (cipher_backend c (detect m) = BSse2 -> (can_execute m (cipher_executes c (detect m) v) -> v = Ietf))
  /\ (rng_backend c (detect m) = BSse2 -> ~ can_execute m (rng_executes c (detect m) v)).
Proof.
  intros E. split; intros B; unfold cipher_executes, rng_executes; rewrite B.
  - intros H. destruct v; [reflexivity|]. exfalso.
    assert (A : In mm_extract_epi32 (isa_sse2_inner Legacy)) by (cbn; tauto).
    specialize (H _ A SSE41 (or_introl eq_refl)). congruence.
  - intros H. assert (A : In mm_extract_epi32 (isa_sse2_rng_inner v)) by (destruct v; cbn; tauto).
    specialize (H _ A SSE41 (or_introl eq_refl)). congruence.
Qed.

(** Witness: the default configuration on a CPU with SSE2 and nothing later (an x86-64
    CPU such as the AMD K8 or K10 has no SSE4.1). *)
Definition default_x86 := {| c_target := X86; c_backend := NoCfg; c_avx512 := false |}.
Definition only_sse2 : machine := fun e => match e with SSE2 => true | _ => false end.
Theorem C52_refuted_rng :
  exists c m, real m /\ runs_on c m /\ forall v, ~ can_execute m (rng_executes c (detect m) v).
Proof.
  exists default_x86, only_sse2. split; [|split].
  - repeat split; discriminate.
  - split; [reflexivity|constructor].
  - intros v. apply (C52_exceptions default_x86 only_sse2 v eq_refl). reflexivity.
Qed.
Theorem C52_refuted_cipher :
  exists c m, real m /\ runs_on c m /\ ~ can_execute m (cipher_executes c (detect m) Legacy).
Proof.
  exists default_x86, only_sse2. split; [|split].
  - repeat split; discriminate.
  - split; [reflexivity|constructor].
  - intros H. apply (proj1 (C52_exceptions default_x86 only_sse2 Legacy eq_refl) eq_refl) in H. discriminate H.
Qed.

(** A backend is used whenever the machine has it: detection is not vacuous. *)
Theorem C52_selects m : real m ->
  cipher_backend default_x86 (detect m)
  = (if m AVX2 then BAvx2 else if m SSE2 then BSse2 else BSoft)
  /\ cipher_backend {| c_target := X86; c_backend := NoCfg; c_avx512 := true |} (detect m)
  = (if m AVX512VL then BAvx512 else if m AVX2 then BAvx2 else if m SSE2 then BSse2 else BSoft).
Proof.
  intros (H1 & _). split; [reflexivity|]. unfold cipher_backend, detect. cbn.
  destruct (m AVX512VL); [rewrite (H1 eq_refl)|rewrite Bool.andb_false_r]; reflexivity.
Qed.

(** The hypotheses can be met: a machine with AVX2 runs the default build. *)
Definition haswell : machine := fun e => match e with AVX512F | AVX512VL | NEON => false | _ => true end.
Example C52_satisfiable :
  real haswell /\ runs_on default_x86 haswell /\ cipher_backend default_x86 (detect haswell) = BAvx2
  /\ can_execute haswell (rng_executes default_x86 (detect haswell) Legacy)
  /\ ~ can_execute only_sse2 (isa_avx2_inner Ietf).
Proof.
  split; [|split; [|split; [|split]]].
  - repeat split; cbn; congruence.
  - split; [reflexivity|constructor].
  - reflexivity.
  - apply can_executeb_spec. reflexivity.
  - intros H. apply can_executeb_spec in H. discriminate.
Qed.

Print Assumptions C52_cipher_partial.
Print Assumptions C52_rng_partial.
Print Assumptions C52_exceptions.
Print Assumptions C52_refuted_rng.
Print Assumptions C52_refuted_cipher.
Print Assumptions C52_selects.
