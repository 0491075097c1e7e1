(** C90: what the repository's continuous integration builds and runs (model: [Ci.v],
    [CfgOthers.v]).  Every build of it compiles, and so does every build of the four crates
    besides [chacha20]; every backend is run by some test; and the defects found in other
    properties lie in configurations that it does not reach. *)
From Verif Require Isa PropertiesIsa PropertiesStream CiphersProofs Ciphers SpecStream.
From Verif Require Import Cfg CfgProofs CfgOthers Ci PropertiesCfg.
From Coq Require Import Arith NArith Lia.
Local Open Scope string_scope.

(** ** The other four crates *)
(** Always true; it gives the tautology checker an atom to split on. *)
Definition either : cfg := COr FZeroize (CNot FZeroize).
Lemma either_true e : eval e either = true.
Proof. cbn. apply orb_negb_r. Qed.
Lemma checked e s : uses_ok 4 either (conds CTrue s) (conds CTrue s) = true -> decls_ok 4 either (conds CTrue s) = true ->
  taut 4 (under CTrue either (CNot (errors (conds CTrue s)))) = true -> accepted (active e s).
Proof.
  intros H1 H2 H3. rewrite <- (keep_conds e s CTrue eq_refl). split; [|split].
  - apply (uses_ok_sound _ _ _ _ _ H1). apply either_true.
  - apply nodup_split. apply (decls_ok_sound _ _ _ _ H2). apply either_true.
  - intros m Hm. apply (taut_sound e) in H3. apply (under_eval e CTrue either _) in H3; [|reflexivity|apply either_true]. cbn [eval] in H3.
    rewrite (proj2 (errors_spec e _) (ex_intro _ m Hm)) in H3. discriminate.
Qed.
(** Whatever the features and the target. *)
Theorem C90_members e m : m <> MChacha20 -> accepted (active e (source m)).
Proof.
  intros H. destruct m; [contradiction| | | |]; apply checked; vm_compute; reflexivity.
Qed.
Print Assumptions C90_members.
(** The type whose [drop] wipes the key material of a type: itself or its only field. *)
Definition wiper (ty : string) : string :=
  if ty =? "XSalsaCore" then "SalsaCore" else if ty =? "RabbitKeyOnlyCore" then "State" else if ty =? "RabbitCore" then "State" else ty.
(** The marker trait [ZeroizeOnDrop] is there exactly with the feature, and never without
    the destructor that justifies it. *)
Theorem C90_marker e m ty : In ty (key_types m) ->
  (In (Decl ("impl ZeroizeOnDrop for " ++ ty) "") (active e (source m)) <-> e FZeroize = true)
  /\ (e FZeroize = true -> In (Decl ("impl Drop for " ++ wiper ty) "") (active e (source m))).
Proof.
  intros H. assert (D : forall n s, eval e (declares n "" (conds CTrue s)) = true -> In (Decl n "") (active e s)).
  { intros n s E. rewrite <- (keep_conds e s CTrue eq_refl). apply declares_spec in E. destruct E as (t' & Hi & [X|X]); [discriminate|].
    subst. exact Hi. }
  assert (C : forall n s, In (Decl n "") (active e s) -> eval e (declares n "*" (conds CTrue s)) = true).
  { intros n s Hi. rewrite <- (keep_conds e s CTrue eq_refl) in Hi. exact (declares_complete _ _ _ _ Hi). }
  destruct m; cbn [key_types In] in H; try contradiction;
    repeat match goal with X : _ \/ _ |- _ => destruct X as [X|X] end; try contradiction; subst ty;
    (split; [split|]; intros X;
      [ apply C in X; change (eval e FZeroize = true); revert X; apply implies_eval; apply (taut_sound e 4); vm_compute; reflexivity
      | apply D; revert X; change (e FZeroize) with (eval e FZeroize); apply implies_eval; apply (taut_sound e 4); vm_compute; reflexivity
      | apply D; revert X; change (e FZeroize) with (eval e FZeroize); apply implies_eval; apply (taut_sound e 4); vm_compute; reflexivity ]).
Qed.
Print Assumptions C90_marker.

(** ** The continuous integration *)
Definition tested_build (opt : bool) (s : step) (b : build) : Prop := In s ci /\ In b (builds opt s).
(** All the facts below are about finitely many steps and builds. *)
Definition all_ci (opt : bool) (p : step -> build -> bool) : bool :=
  forallb (fun s => forallb (p s) (builds opt s)) ci.
Lemma all_ci_sound (p : step -> build -> bool) : all_ci false p = true -> all_ci true p = true ->
  forall opt s b, tested_build opt s b -> p s b = true.
Proof.
  intros H1 H2 opt s b (Hs & Hb). assert (H : all_ci opt p = true) by (destruct opt; assumption).
  unfold all_ci in H. rewrite forallb_forall in H. specialize (H s Hs). cbv beta in H. rewrite forallb_forall in H. exact (H b Hb).
Qed.
Definition x86_b (b : build) : bool := match b_arch b with X86_32 | X86_64 => true | _ => false end.
Definition fits (b : build) : bool :=
  negb (x86_b b) || ((match b_backend b with Avx512 => false | _ => true end)
                     && (match b_backend b with Avx2 => t_avx2 b | _ => true end)
                     && (match b_backend b with Sse2 => t_sse2 b | _ => true end)).
Lemma fits_accepted b : fits b = true -> accepted (items b).
Proof.
  intros H. apply C58_exactly. unfold features_enabled, half_avx512, on_x86. unfold fits, x86_b in H.
  destruct (b_arch b), (b_backend b); cbn in H; (split; [intros [?|?]|intros (([?|?] & ? & ?) & ?)]);
    try discriminate; try (split; [|split]); intros; try discriminate; try exact H; try (rewrite andb_true_r in H; exact H).
Qed.
(** Every build that CI performs is one that the model of conditional compilation accepts
    (so a green CI agrees with the model), and AVX-512 only with a toolchain that has it. *)
Theorem C90_compiles opt s b : tested_build opt s b ->
  accepted (active (atoms b) (source (s_member s))) /\ (b_avx512 b = true -> s_rust s = Stable).
Proof.
  intros H. split.
  - assert (F : fits b = true) by (revert H; apply (all_ci_sound (fun _ b => fits b)); vm_compute; reflexivity).
    destruct (s_member s) eqn:E; try (apply C90_members; discriminate). apply fits_accepted. exact F.
  - assert (F : negb (b_avx512 b) || match s_rust s with Stable => true | _ => false end = true)
      by (revert H; apply (all_ci_sound (fun s b => negb (b_avx512 b) || match s_rust s with Stable => true | _ => false end)); vm_compute; reflexivity).
    intros X. rewrite X in F. destruct (s_rust s); [discriminate|reflexivity].
Qed.
Print Assumptions C90_compiles.

(** The machine a step may meet: one that has what the build requires; the emulator of the
    AVX-512 job has everything. *)
Definition meets (s : step) (b : build) (m : Isa.machine) : Prop :=
  Isa.real m /\ Isa.runs_on (config_of b) m
  /\ (s_runner s = Sde -> m Isa.AVX512F = true /\ m Isa.AVX512VL = true).
(** Each backend of the cipher, and each of the generator, is what some test runs, on every
    machine it can meet; the generator never uses AVX-512. *)
Theorem C90_reached opt :
  (forall k, exists s b, tested_build opt s b /\ s_member s = MChacha20 /\ runs (s_action s) = true /\ atoms b FCipher = true
     /\ forall m, meets s b m -> Isa.cipher_backend (config_of b) (Isa.detect m) = k)
  /\ (forall k, k <> Isa.BAvx512 -> exists s b, tested_build opt s b /\ s_member s = MChacha20 /\ runs (s_action s) = true /\ f_rng b = true
     /\ forall m, meets s b m -> Isa.rng_backend (config_of b) (Isa.detect m) = k)
  /\ (forall c p, Isa.rng_backend c p <> Isa.BAvx512).
Proof.
  assert (IN : forall s, In (build_of s all_features) (builds opt s) \/ ~ In all_features (fsets opt (s_features s))).
  { intros s. destruct (s_features s) eqn:E; unfold builds; rewrite E.
    - right. intros [X|[]]; discriminate.
    - right. intros [X|[]]; discriminate.
    - left. left. reflexivity.
    - left. cbn [fsets]. rewrite map_app. apply in_or_app. right. left. reflexivity. }
  set (st := fun (r : toolchain) t f fs ru => mk MChacha20 r t f fs Test ru).
  set (soft := st Stable x86_64_linux (force Soft) FsPowerset Host).
  set (sse2 := st Stable i686_linux (force Sse2) FsPowerset Host).
  set (avx2 := st Msrv x86_64_linux {| fl_backend := Avx2; fl_avx512 := false; fl_avx2 := true |} FsPowerset Host).
  set (avx512 := st Stable x86_64_linux {| fl_backend := Unset; fl_avx512 := true; fl_avx2 := false |} FsAll Sde).
  set (neon := st Stable aarch64_linux no_flags FsAll Cross).
  assert (T : forall s, In s [soft; sse2; avx2; avx512; neon] -> tested_build opt s (build_of s all_features)).
  { intros s Hs. assert (HI : In s ci).
    { repeat (destruct Hs as [<-|Hs]; [unfold ci; apply in_or_app; left; vm_compute; tauto|]). destruct Hs. }
    split; [exact HI|]. destruct (IN s) as [X|X]; [exact X|]. exfalso. apply X.
    repeat (destruct Hs as [<-|Hs]; [first [left; reflexivity | cbn [fsets s_features mk st soft sse2 avx2]; apply in_or_app; right; left; reflexivity]|]).
    destruct Hs. }
  split; [|split].
  - intros k. exists (match k with Isa.BSoft => soft | Isa.BSse2 => sse2 | Isa.BAvx2 => avx2 | Isa.BAvx512 => avx512 | Isa.BNeon => neon end).
    exists (build_of (match k with Isa.BSoft => soft | Isa.BSse2 => sse2 | Isa.BAvx2 => avx2 | Isa.BAvx512 => avx512 | Isa.BNeon => neon end) all_features).
    split; [apply T; destruct k; cbn; tauto|]. split; [destruct k; reflexivity|]. split; [destruct k; reflexivity|]. split; [destruct k; reflexivity|].
    intros m (_ & _ & Hm). destruct k; try reflexivity. destruct (Hm eq_refl) as (A & B).
    unfold Isa.detect. unfold Isa.cipher_backend. cbn. rewrite A, B. reflexivity.
  - intros k Hk. exists (match k with Isa.BSoft => soft | Isa.BSse2 => sse2 | Isa.BAvx2 => avx2 | Isa.BAvx512 => avx512 | Isa.BNeon => neon end).
    exists (build_of (match k with Isa.BSoft => soft | Isa.BSse2 => sse2 | Isa.BAvx2 => avx2 | Isa.BAvx512 => avx512 | Isa.BNeon => neon end) all_features).
    split; [apply T; destruct k; cbn; tauto|]. split; [destruct k; reflexivity|]. split; [destruct k; reflexivity|]. split; [destruct k; reflexivity|].
    intros m _. destruct k; try reflexivity. contradiction.
  - intros [t b a] [p1 p2 p3]. unfold Isa.rng_backend. cbn. destruct b, t, p2, p3; discriminate.
Qed.
Print Assumptions C90_reached.

(** What the runs cover.  The four ways of choosing a backend are each tested on both x86
    targets with both toolchains and every set of features; AVX-512 with default and with all
    features; big-endian byte order on a 32-bit target; NEON on a 64-bit one; the other crates
    with and without [zeroize], and built with and without it for both embedded targets. *)
Theorem C90_covers opt :
  (forall f t r c g l x, In f [no_flags; {| fl_backend := Avx2; fl_avx512 := false; fl_avx2 := true |}; force Sse2; force Soft] ->
     In t [i686_linux; x86_64_linux] -> In r [Msrv; Stable] ->
     exists s b, tested_build opt s b /\ s_member s = MChacha20 /\ s_action s = Test /\ s_flags s = f /\ s_target s = t /\ s_rust s = r
       /\ f_cipher b = c /\ f_rng b = g /\ f_legacy b = l /\ f_xchacha b = x)
  /\ (forall f, In f [FsDefault; FsAll] -> exists s b, tested_build opt s b /\ s_action s = Test /\ s_runner s = Sde /\ s_features s = f
       /\ b_avx512 b = true /\ b_backend b = Unset /\ b_arch b = X86_64)
  /\ (forall t, In t [aarch64_linux; powerpc_linux] -> exists s b, tested_build opt s b /\ s_action s = Test /\ s_target s = t
       /\ f_cipher b = true /\ f_rng b = true /\ f_legacy b = true /\ f_xchacha b = true /\ f_zeroize b = true)
  /\ (forall m z, m <> MChacha20 -> exists s b, tested_build opt s b /\ s_member s = m /\ s_action s = Test /\ s_target s = x86_64_linux /\ f_zeroize b = z)
  /\ (forall m z t, m <> MChacha20 -> In t [thumbv7em; wasm32] ->
       exists s b, tested_build opt s b /\ s_member s = m /\ s_action s = Build /\ s_target s = t /\ f_zeroize b = z).
Proof.
  assert (J : forall f t r, In t [i686_linux; x86_64_linux] -> In r [Msrv; Stable] -> In (mk MChacha20 r t f FsPowerset Test Host) (x86_job f)).
  { intros f t r Ht Hr. apply in_flat_map. exists t. split; [exact Ht|]. apply in_flat_map. exists r. split; [exact Hr|]. right. left. reflexivity. }
  assert (B : forall b, In b bools) by (intros []; cbn; tauto).
  split; [|split; [|split; [|split]]].
  - intros f t r c g l x Hf Ht Hr. set (s := mk MChacha20 r t f FsPowerset Test Host).
    exists s, (build_of s {| fs_cipher := c; fs_rng := g; fs_legacy := l; fs_xchacha := x; fs_zeroize := false |}).
    split; [split|repeat split; reflexivity].
    + unfold ci, chacha20_yml. apply in_or_app. left. specialize (J f t r Ht Hr). fold s in J.
      rewrite !in_app_iff. destruct Hf as [E|[E|[E|[E|[]]]]]; rewrite E in *; tauto.
    + unfold builds. apply in_map. cbn [s_features s mk fsets]. apply in_or_app. left.
      apply in_flat_map. exists c. split; [apply B|]. apply in_flat_map. exists g. split; [apply B|].
      apply in_flat_map. exists l. split; [apply B|]. apply in_flat_map. exists x. split; [apply B|].
      apply in_map_iff. exists false. split; [reflexivity|]. destruct opt; [apply B|left; reflexivity].
  - intros f Hf. set (s := mk MChacha20 Stable x86_64_linux {| fl_backend := Unset; fl_avx512 := true; fl_avx2 := false |} f Test Sde).
    assert (I : In s ci).
    { unfold ci, chacha20_yml. apply in_or_app. left. rewrite !in_app_iff. right. right. left.
      destruct Hf as [<-|[<-|[]]]; [left|right; left]; reflexivity. }
    destruct Hf as [<-|[<-|[]]]; exists s; eexists; (split; [split; [exact I|left; reflexivity]|repeat split; reflexivity]).
  - intros t Ht. set (s := mk MChacha20 Stable t no_flags FsAll Test Cross). exists s. eexists. split; [split; [|left; reflexivity]|repeat split; reflexivity].
    unfold ci, chacha20_yml. apply in_or_app. left. rewrite !in_app_iff. do 6 right. apply in_flat_map. exists t. split; [exact Ht|]. right. left. reflexivity.
  - intros m z Hm. set (s := mk m Stable x86_64_linux no_flags (if z then FsAll else FsDefault) Test Host). exists s.
    exists (build_of s (hd all_features (fsets opt (s_features s)))). split; [split; [|destruct z; left; reflexivity]|].
    + unfold ci. apply in_or_app. right. apply in_flat_map. exists m. split; [destruct m; cbn; tauto|].
      unfold plain_yml. apply in_or_app. right. apply in_flat_map. exists Stable. split; [right; left; reflexivity|]. destruct z; cbn; tauto.
    + destruct z; repeat split; reflexivity.
  - intros m z t Hm Ht. set (s := mk m Stable t no_flags (if z then FsZeroize else FsDefault) Build Host). exists s.
    exists (build_of s (hd all_features (fsets opt (s_features s)))). split; [split; [|destruct z; left; reflexivity]|].
    + unfold ci. apply in_or_app. right. apply in_flat_map. exists m. split; [destruct m; cbn; tauto|].
      unfold plain_yml. apply in_or_app. left. apply in_flat_map. exists Stable. split; [right; left; reflexivity|].
      apply in_flat_map. exists t. split; [exact Ht|]. destruct z; cbn; tauto.
    + destruct z; repeat split; reflexivity.
Qed.
Print Assumptions C90_covers.
(** The builds are consistent with their targets: NEON exactly on [aarch64], SSE2 exactly on
    x86, 64-bit pointers exactly on the two 64-bit architectures, big-endian only in one of the
    cross-compiled runs; AVX2 is only promised where it is forced, AVX-512 never. *)
Theorem C90_targets opt s b : tested_build opt s b ->
  t_neon b = (match b_arch b with Aarch64 => true | _ => false end)
  /\ t_sse2 b = (match b_arch b with X86_32 | X86_64 => true | _ => false end)
  /\ tg_bits (s_target s) = (match b_arch b with Aarch64 | X86_64 => 64 | _ => 32 end)%nat
  /\ t_avx2 b = (match b_backend b with Avx2 => true | _ => false end)
  /\ t_avx512f b = false /\ t_avx512vl b = false
  /\ (s_runner s = Sde <-> b_avx512 b = true)
  /\ (s_features s = FsDefault -> f_cipher b = true /\ f_rng b = false /\ f_legacy b = false /\ f_xchacha b = false /\ f_zeroize b = false)
  /\ (s_features s = FsZeroize -> f_cipher b = true /\ f_rng b = false /\ f_legacy b = false /\ f_xchacha b = false /\ f_zeroize b = true)
  /\ (s_features s = FsAll -> f_cipher b = true /\ f_rng b = true /\ f_legacy b = true /\ f_xchacha b = true /\ f_zeroize b = true)
  /\ (tg_big (s_target s) = true <-> s_runner s = Cross /\ b_arch b = OtherArch).
Proof.
  intros H.
  pose (p := fun (s : step) (b : build) =>
    Bool.eqb (t_neon b) (match b_arch b with Aarch64 => true | _ => false end)
    && Bool.eqb (t_sse2 b) (match b_arch b with X86_32 | X86_64 => true | _ => false end)
    && Nat.eqb (tg_bits (s_target s)) (match b_arch b with Aarch64 | X86_64 => 64 | _ => 32 end)%nat
    && Bool.eqb (t_avx2 b) (match b_backend b with Avx2 => true | _ => false end)
    && negb (t_avx512f b) && negb (t_avx512vl b)
    && Bool.eqb (match s_runner s with Sde => true | _ => false end) (b_avx512 b)
    && match s_features s with
       | FsDefault => f_cipher b && negb (f_rng b) && negb (f_legacy b) && negb (f_xchacha b) && negb (f_zeroize b)
       | FsZeroize => f_cipher b && negb (f_rng b) && negb (f_legacy b) && negb (f_xchacha b) && f_zeroize b
       | FsAll => f_cipher b && f_rng b && f_legacy b && f_xchacha b && f_zeroize b
       | FsPowerset => true
       end
    && Bool.eqb (tg_big (s_target s)) (match s_runner s with Cross => true | _ => false end && match b_arch b with OtherArch => true | _ => false end)).
  assert (P : p s b = true) by (apply (all_ci_sound p) with (opt := opt); [vm_compute; reflexivity | vm_compute; reflexivity | exact H]).
  unfold p in P. rewrite !andb_true_iff in P. destruct P as ((((((((P1 & P2) & P3) & P4) & P5) & P6) & P7) & P8) & P9).
  apply eqb_prop in P1, P2, P4, P7, P9. apply Nat.eqb_eq in P3. apply negb_true_iff in P5, P6.
  repeat (split; [assumption|]).
  split; [destruct (s_runner s); rewrite <- P7; split; intros X; first [reflexivity | discriminate X]|].
  split; [intros E; rewrite E in P8; rewrite !andb_true_iff, !negb_true_iff in P8; tauto|].
  split; [intros E; rewrite E in P8; rewrite !andb_true_iff, !negb_true_iff in P8; tauto|].
  split; [intros E; rewrite E in P8; rewrite !andb_true_iff in P8; tauto|].
  rewrite P9. destruct (s_runner s), (b_arch b); cbn; split; try discriminate; try (intros [X Y]; discriminate); auto.
Qed.
Print Assumptions C90_targets.

(** What it does not reach, and which findings that hides. *)
Theorem C90_unreached opt s b : tested_build opt s b ->
  (* C58: the combination that does not compile; AVX-512 is never forced, nor used on 32 bits *)
  b_backend b <> Avx512 /\ ~ half_avx512 b /\ (b_avx512 b = true -> b_arch b = X86_64)
  (* C62: NEON in big-endian byte order; the one big-endian run is of [chacha20]'s portable code *)
  /\ (b_arch b = Aarch64 -> tg_big (s_target s) = false)
  /\ (tg_big (s_target s) = true -> s_member s = MChacha20 /\ forall p, Isa.cipher_backend (config_of b) p = Isa.BSoft)
  (* C20, C26, C31, C36: arithmetic that wraps instead of panicking *)
  /\ (runs (s_action s) = true -> overflow_checks (s_action s) = true)
  (* the other crates' tests run on one 64-bit little-endian target *)
  /\ (s_member s <> MChacha20 -> runs (s_action s) = true -> s_target s = x86_64_linux).
Proof.
  intros H.
  pose (p := fun (s : step) (b : build) =>
    match b_backend b with Avx512 => false | _ => true end
    && (negb (b_avx512 b) || match b_arch b with X86_64 => true | _ => false end)
    && (match b_arch b with Aarch64 => negb (tg_big (s_target s)) | _ => true end)
    && (negb (tg_big (s_target s)) || (match s_member s with MChacha20 => true | _ => false end
          && match b_arch b with OtherArch => true | _ => false end))
    && (negb (runs (s_action s)) || overflow_checks (s_action s))
    && match s_member s with MChacha20 => true | _ => negb (runs (s_action s)) ||
         (match tg_arch (s_target s) with X86_64 => true | _ => false end && negb (tg_big (s_target s))
          && Nat.eqb (tg_bits (s_target s)) 64 && negb (tg_neon (s_target s)) && tg_sse2 (s_target s)) end).
  assert (P : p s b = true) by (apply (all_ci_sound p) with (opt := opt); [vm_compute; reflexivity | vm_compute; reflexivity | exact H]).
  unfold p in P. rewrite !andb_true_iff in P. destruct P as (((((P1 & P2) & P3) & P4) & P5) & P6).
  split; [intros X; rewrite X in P1; discriminate|].
  split; [intros (_ & X & _); rewrite X in P1; discriminate|].
  split; [intros X; rewrite X in P2; cbn in P2; destruct (b_arch b); try discriminate; reflexivity|].
  split; [intros X; rewrite X in P3; destruct (tg_big (s_target s)); [discriminate|reflexivity]|].
  split.
  { intros X. rewrite X in P4. cbn in P4. apply andb_prop in P4. destruct P4 as (Q1 & Q2).
    split; [destruct (s_member s); try discriminate; reflexivity|]. intros q. unfold Isa.cipher_backend, config_of.
    cbn [ChaChaDispatch.c_backend ChaChaDispatch.c_target]. destruct (b_arch b); try discriminate. destruct (b_backend b); reflexivity. }
  split; [intros X; rewrite X in P5; exact P5|].
  intros X Y. rewrite Y in P6. cbn [negb orb] in P6.
  assert (Q : match tg_arch (s_target s) with X86_64 => true | _ => false end && negb (tg_big (s_target s))
          && Nat.eqb (tg_bits (s_target s)) 64 && negb (tg_neon (s_target s)) && tg_sse2 (s_target s) = true)
    by (destruct (s_member s); [contradiction| | | |]; exact P6).
  destruct (s_target s) as [a bg bits nn s2]. cbn in Q. destruct a; try discriminate. destruct bg; try discriminate.
  destruct (Nat.eqb_spec bits 64) as [->|]; [|discriminate]. destruct nn; try discriminate. destruct s2; try discriminate. reflexivity.
Qed.
Print Assumptions C90_unreached.
(** C52: the machines of CI run the AVX2 job, hence have SSE4.1, so the SSE4.1 instruction
    of the SSE2 backend never faults there. *)
Theorem C90_hides_sse41 opt m : Isa.real m ->
  (forall s b, tested_build opt s b -> s_action s = Test -> s_runner s = Host -> Isa.runs_on (config_of b) m) ->
  m Isa.SSE41 = true
  /\ forall s b v, tested_build opt s b -> s_action s = Test -> s_runner s = Host ->
       PropertiesIsa.can_execute m (Isa.cipher_executes (config_of b) (Isa.detect m) v)
       /\ PropertiesIsa.can_execute m (Isa.rng_executes (config_of b) (Isa.detect m) v).
Proof.
  intros R H. assert (E : m Isa.SSE41 = true).
  { pose (s := mk MChacha20 Msrv x86_64_linux {| fl_backend := Avx2; fl_avx512 := false; fl_avx2 := true |} FsPowerset Test Host).
    assert (T : tested_build opt s (build_of s all_features)).
    { split; [unfold ci; apply in_or_app; left; vm_compute; tauto|]. unfold builds. cbn [s_features s mk fsets].
      rewrite map_app. apply in_or_app. right. left. reflexivity. }
    destruct (H _ _ T eq_refl eq_refl) as (_ & F). inversion F as [|? ? A _]; subst.
    destruct R as (_ & _ & R1 & R2 & _). apply R2, R1, A. }
  split; [exact E|]. intros s b v T A B. assert (C := H _ _ T A B). split.
  - apply PropertiesIsa.C52_cipher_partial; auto.
  - apply PropertiesIsa.C52_rng_partial; auto.
Qed.
Print Assumptions C90_hides_sse41.

(** ** The benchmarks *)
Import SpecStream Ciphers CiphersProofs.
Local Open Scope N_scope.
(** The loop of a benchmark [benches/src/chacha20.rs:20-25], and of those that
    [chacha20/benches/mod.rs:5-27] has generated: one cipher is applied over and over to
    one buffer of [size] bytes, whose contents change with every turn. *)
Definition loop (size : nat) (h : list op) : Prop :=
  Forall (fun o => exists d, o = Apply d /\ List.length d = size) h.
Lemma loop_spec ks l strict size h : forall p, loop size h -> p <= l_usable l -> 0 < l_bs l -> 2 <= l_blocks l ->
  exists rs q, run_spec ks (Some l) strict p h = Some (rs, q)
    /\ ((forall i, (i < List.length h)%nat -> nth i rs Err <> Err) <-> (h = [] \/ p + N.of_nat (List.length h) * N.of_nat size <= l_usable l)).
Proof.
  induction h as [|o h IH]; intros p Hl Hp Hb Hn; [exists [], p; split; [reflexivity|]; split; [left; reflexivity | cbn; intros _ i Hi; lia]|].
  inversion Hl as [|? ? (d & -> & Hd) Hl']; subst. cbn [run_spec step_spec].
  assert (Hq : p mod l_period l = p) by (apply N.mod_small; unfold l_period; unfold l_usable in Hp; nia).
  unfold granted. rewrite Hq. replace (p <=? l_usable l) with true by (symmetry; apply N.leb_le; exact Hp).
  destruct (N.leb_spec (p + N.of_nat (List.length d)) (l_usable l)) as [G|G].
  - destruct (IH (p + N.of_nat (List.length d)) Hl' G Hb Hn) as (rs & q & E & X). rewrite E.
    exists (Bytes (ks_xor ks p d) :: rs), q. split; [reflexivity|]. cbn [List.length]. rewrite Nat2N.inj_succ, N.mul_succ_l. split.
    + intros F. right. destruct X as (X & _). destruct X as [->|X]; [intros i Hi; apply (F (S i)); lia | cbn [List.length]; lia | lia].
    + intros [F|F]; [discriminate|]. intros [|i] Hi; cbn [nth]; [discriminate|]. apply X; [|lia].
      destruct h; [left; reflexivity|right]. cbn [List.length] in *. lia.
  - destruct (IH p Hl' Hp Hb Hn) as (rs & q & E & X). rewrite E. exists (Err :: rs), q. split; [reflexivity|]. split.
    + intros F. exfalso. apply (F 0%nat); [cbn [List.length]; lia|reflexivity].
    + intros [F|F]; [discriminate|]. exfalso. cbn [List.length] in F. rewrite Nat2N.inj_succ, N.mul_succ_l in F. lia.
Qed.
(** How often the loop can turn before [apply_keystream] panics (the [unwrap] of an error):
    for the ChaCha ciphers with a 32-bit counter the 256 GiB limit is within reach of a
    benchmark only after 2^28 - 1 turns at 1 KiB and 2^24 - 1 turns at 16 KiB. *)
Theorem C90_bench e n key iv size h : env_ok e -> cipher_ok (CChaCha ChaChaCore.Ietf n key iv) -> loop size h ->
  N.of_nat size < 2 ^ e_usz e -> h <> [] ->
  exists rs, cipher_run e (CChaCha ChaChaCore.Ietf n key iv) h = Res.Ok rs
    /\ ((forall i, (i < List.length h)%nat -> nth i rs Err <> Err)
        <-> N.of_nat (List.length h) * N.of_nat size <= 2 ^ 38 - 64).
Proof.
  intros He Hc Hl Hs Hn. rewrite PropertiesStream.C17_history; [|exact He|exact Hc|].
  - cbn [cipher_lim]. destruct (loop_spec (cipher_ks (CChaCha ChaChaCore.Ietf n key iv)) {| l_bs := 64; l_blocks := 2 ^ 32 |}
      (cipher_strict e (CChaCha ChaChaCore.Ietf n key iv)) size h 0 Hl) as (rs & q & E & X); [apply N.le_0_l | reflexivity | discriminate |].
    rewrite E. exists rs. split; [reflexivity|]. rewrite X. unfold l_usable. cbn [l_bs l_blocks]. rewrite N.add_0_l.
    change (64 * (2 ^ 32 - 1)) with (2 ^ 38 - 64). tauto.
  - eapply Forall_impl; [|exact Hl]. intros o (d & -> & Hd). unfold call_ok. rewrite Hd. exact Hs.
Qed.
Print Assumptions C90_bench.
(** The sizes of [benches/src/chacha20.rs:14]. *)
Corollary C90_bench_turns : forall k, (k <= 4)%nat -> let size := (1024 * 2 ^ k)%nat in
  forall t, t * N.of_nat size <= 2 ^ 38 - 64 <-> t <= 2 ^ (28 - N.of_nat k) - 1.
Proof.
  intros k Hk size t. subst size.
  destruct k as [|[|[|[|[|k]]]]]; [..|lia];
    repeat match goal with |- context [N.of_nat ?x] => let v := eval vm_compute in (N.of_nat x) in change (N.of_nat x) with v end;
    repeat match goal with |- context [2 ^ ?x] => let v := eval vm_compute in (2 ^ x) in change (2 ^ x) with v end; lia.
Qed.
Print Assumptions C90_bench_turns.

(** The hypotheses are met: the number of builds under either reading of [cargo hack], the
    number of test runs of [chacha20], and concrete steps; the markers are not vacuous; and
    [accepted] notices a crate that goes wrong, such as a [Drop] for a type whose field is
    moved out. *)
Definition count (opt : bool) (p : step -> bool) : nat := List.length (flat_map (builds opt) (filter p ci)).
Definition active_cipher_without_zeroize : src := Its (active (fun _ => false) cipher_crate).
Definition everything : Isa.machine := fun _ => true.
Definition item_eqb (x y : item) : bool :=
  match x, y with
  | Decl n t, Decl n' t' | Use n t, Use n' t' => ((n =? n') && (t =? t'))%string
  | Error m, Error m' => (m =? m')%string
  | _, _ => false
  end.
Lemma item_in x l : existsb (item_eqb x) l = true -> In x l.
Proof.
  intros H. apply existsb_exists in H. destruct H as (y & Hi & E).
  destruct x, y; cbn in E; try discriminate; try (apply andb_prop in E; destruct E as (E & E2); apply String.eqb_eq in E2; subst);
    apply String.eqb_eq in E; subst; exact Hi.
Qed.
(** The benchmarks ([benches/Cargo.toml:14], [benches.yml:22]) build: with the ciphers and
    generators they measure, the wiping of dropped values included, without the XChaCha and
    legacy types, detecting AVX2 and SSE2 but not AVX-512 on the machine that runs them. *)
Theorem C90_benches :
  accepted (items benches_build)
  /\ In (Decl "crate::ChaCha20" "") (items benches_build) /\ In (Decl "crate::ChaCha20Rng" "") (items benches_build)
  /\ In (Decl "impl ZeroizeOnDrop for ChaChaCore" "") (items benches_build)
  /\ ~ In (Decl "crate::XChaCha20" "") (items benches_build) /\ ~ In (Decl "crate::ChaCha20Legacy" "") (items benches_build)
  /\ (forall p, let k := if ChaChaDispatch.has_avx2 p then Isa.BAvx2 else if ChaChaDispatch.has_sse2 p then Isa.BSse2 else Isa.BSoft in
        Isa.cipher_backend (config_of benches_build) p = k /\ Isa.rng_backend (config_of benches_build) p = k)
  /\ static benches_build Isa.SSE2 = true
  /\ Forall (fun x => static benches_build x = false) [Isa.AVX2; Isa.AVX512F; Isa.AVX512VL; Isa.NEON].
Proof.
  assert (N : forall n, existsb (fun y => match y with Decl m _ => (m =? n)%string | _ => false end) (items benches_build) = false ->
    ~ In (Decl n "") (items benches_build)).
  { intros n E H. rewrite <- Bool.not_true_iff_false in E. apply E. apply existsb_exists. exists (Decl n ""). split; [exact H | apply String.eqb_refl]. }
  split; [apply fits_accepted; reflexivity|].
  split; [apply item_in; vm_compute; reflexivity|]. split; [apply item_in; vm_compute; reflexivity|].
  split; [apply item_in; vm_compute; reflexivity|]. split; [apply N; vm_compute; reflexivity|]. split; [apply N; vm_compute; reflexivity|].
  split; [intros p; split; reflexivity|]. split; [reflexivity|]. repeat (constructor; [reflexivity|]). constructor.
Qed.
Print Assumptions C90_benches.
Lemma everything_ok opt s b : tested_build opt s b -> meets s b everything.
Proof.
  intros H. split; [repeat split; reflexivity|]. split; [|intros _; split; reflexivity]. split.
  - revert H. apply (all_ci_sound (fun _ b => ChaChaDispatch.compiles (config_of b))); vm_compute; reflexivity.
  - apply Forall_forall. intros x _. reflexivity.
Qed.
Example C90_satisfiable :
  (List.length ci = 90%nat /\ count false (fun _ => true) = 410%nat /\ count true (fun _ => true) = 730%nat
   /\ count false (fun s => runs (s_action s)) = 294%nat)
  /\ accepted (items benches_build)
  (* a machine that all tests can run on *)
  /\ (forall opt s b, tested_build opt s b -> meets s b everything)
  (* without the feature there is no marker *)
  /\ ~ In (Decl "impl ZeroizeOnDrop for RabbitCore" "") (active (fun _ => false) (source MRabbit))
  (* a [Drop] for the type that [inner_iv_init] takes apart *)
  /\ ~ accepted (active (fun _ => true) (Cat (source MRabbit) (drop_impl "RabbitKeyOnlyCore")))
  (* a crate whose feature [zeroize] does not enable that of [cipher] *)
  /\ ~ accepted (active (fun _ => true) (Cat (active_cipher_without_zeroize) salsa_lib))
  (* two turns of a loop *)
  /\ loop 3 [Apply [1; 2; 3]; Apply [4; 5; 6]].
Proof.
  split; [repeat split; vm_compute; reflexivity|].
  split; [apply fits_accepted; reflexivity|]. split; [exact everything_ok|].
  split; [intros H; apply (C90_marker (fun _ => false) MRabbit "RabbitCore") in H; [discriminate | right; left; reflexivity]|].
  split; [|split].
  - intros (_ & H & _). set (x := Decl "impl Drop for RabbitKeyOnlyCore" "") in *.
    assert (Hi : In x (active (fun _ => true) (source MRabbit))) by (apply item_in; vm_compute; reflexivity).
    cbn [active] in H. apply (H (active (fun _ => true) (source MRabbit)) [] "impl Drop for RabbitKeyOnlyCore"%string "" "").
    + reflexivity.
    + rewrite app_nil_r. exact Hi.
  - intros (H & _). destruct (H "cipher::zeroize::Zeroize" "") as (t & Hi & _); [apply item_in; vm_compute; reflexivity|].
    assert (E : existsb (fun y => match y with Decl n _ => (n =? "cipher::zeroize::Zeroize")%string | _ => false end)
      (active (fun _ => true) (Cat active_cipher_without_zeroize salsa_lib)) = false) by (vm_compute; reflexivity).
    rewrite <- not_true_iff_false in E. apply E. apply existsb_exists. exists (Decl "cipher::zeroize::Zeroize" t).
    split; [exact Hi|reflexivity].
  - repeat (apply Forall_cons; [eexists; split; reflexivity|]). apply Forall_nil.
Qed.
