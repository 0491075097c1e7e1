(** C58: conditional compilation of [chacha20] (model: [Cfg.v]).  Under every combination
    of features, target and [--cfg] options but one, the names and types that the code
    uses exist exactly once; and the modules that the dispatch model of
    [ChaChaDispatch]/[Isa] selects are compiled in. *)
From Verif Require Isa.
From Verif Require Import Cfg CfgProofs.
From Coq Require Import Lia.
Local Open Scope string_scope.

(** What rustc's name resolution and the type of [tokens] demand of the items left after
    conditional compilation. *)
Definition accepted (l : list item) : Prop :=
  (forall n t, In (Use n t) l -> exists t', In (Decl n t') l /\ (t = "*" \/ t = t'))
  /\ (forall l1 l2 n t t', l = (l1 ++ Decl n t :: l2)%list -> ~ In (Decl n t') (l1 ++ l2)%list)
  /\ (forall m, ~ In (Error m) l).

Definition on_x86 (b : build) : Prop := b_arch b = X86_32 \/ b_arch b = X86_64.
(** Some cipher feature or [rng]. *)
Definition any_feature (b : build) : Prop :=
  f_cipher b = true \/ f_legacy b = true \/ f_xchacha b = true \/ f_rng b = true.
(** The target features demanded of a build that forces a backend ([lib.rs:88-101]). *)
Definition features_enabled (b : build) : Prop := on_x86 b ->
  (b_backend b = Avx512 -> b_avx512 b = true -> t_avx512f b = true /\ t_avx512vl b = true)
  /\ (b_backend b = Avx2 -> t_avx2 b = true)
  /\ (b_backend b = Sse2 -> t_sse2 b = true).
(** [chacha20_backend="avx512"] without [chacha20_avx512]. *)
Definition half_avx512 (b : build) : Prop :=
  on_x86 b /\ b_backend b = Avx512 /\ b_avx512 b = false.

Lemma clash_spec b : eval (atoms b) clash = true <-> half_avx512 b /\ any_feature b.
Proof.
  unfold clash, half_avx512, any_feature, on_x86, any_x86, cipher_or_rng. cbn [eval atoms].
  destruct (b_arch b), (b_backend b), (b_avx512 b); cbn [andb orb negb]; rewrite ?orb_true_iff;
    (split; [intros H; try discriminate H | intros [([X|X] & Y & Z) H]; try discriminate]); tauto.
Qed.
Lemma error_cond e : eval e (errors table) = true <->
  eval e (CAnd (CNot BSoft) (CAnd any_x86
    (COr (CAnd (CAnd CAvx512 BAvx512) (CNot (CAnd TAvx512f TAvx512vl)))
         (CAnd (CNot (CAnd CAvx512 BAvx512)) (COr (CAnd BAvx2 (CNot TAvx2)) (CAnd (CNot BAvx2) (CAnd BSse2 (CNot TSse2)))))))) = true.
Proof.
  split; intros H.
  - revert H. apply implies_eval. apply (taut_sound e 24). vm_compute. reflexivity.
  - revert H. apply implies_eval. apply (taut_sound e 24). vm_compute. reflexivity.
Qed.
Lemma no_error b : features_enabled b <-> forall m, ~ In (Error m) (items b).
Proof.
  assert (X : (forall m, ~ In (Error m) (items b)) <-> eval (atoms b) (errors table) <> true).
  { rewrite items_keep. rewrite errors_spec. split; [intros H (m & Hm); exact (H m Hm) | intros H m Hm; apply H; exists m; exact Hm]. }
  rewrite X, error_cond. unfold features_enabled, on_x86, any_x86. cbn [eval atoms].
  destruct (b_arch b); cbn [andb orb negb]; rewrite ?andb_false_r;
    try (split; [intros _; discriminate | intros _ [?|?]; discriminate]).
  all: destruct (b_backend b), (b_avx512 b); cbn [andb orb negb];
    try destruct (t_avx512f b); try destruct (t_avx512vl b); try destruct (t_avx2 b); try destruct (t_sse2 b); cbn [andb orb negb];
    (split; [intros H; try discriminate; exfalso;
               match type of H with ?A -> _ => assert (HA : A) by (first [left; reflexivity | right; reflexivity]) end;
               destruct (H HA) as (H1 & H2 & H3);
               first [discriminate (H3 eq_refl) | discriminate (H2 eq_refl) | destruct (H1 eq_refl eq_refl); discriminate]
            | intros H; first [exfalso; apply H; reflexivity
                | intros _; split; [intros ? ? | split; intros ?]; first [discriminate | split; reflexivity | reflexivity]]]).
Qed.
Lemma nodup_split l : NoDup (flat_map decl_name l) ->
  forall l1 l2 n t t', l = (l1 ++ Decl n t :: l2)%list -> ~ In (Decl n t') (l1 ++ l2)%list.
Proof.
  intros H l1 l2 n t t' -> Hi. rewrite flat_map_app in H. cbn [flat_map decl_name app] in H.
  apply NoDup_remove_2 in H. apply H. rewrite <- flat_map_app. apply in_names. exists t'. exact Hi.
Qed.

(** Every other build is accepted. *)
Theorem C58_compiles_partial b : features_enabled b -> ~ (half_avx512 b /\ any_feature b) -> accepted (items b).
Proof.
  intros Hf Hc. split; [|split].
  - rewrite items_keep. apply (uses_ok_sound _ _ _ _ _ crate_uses). cbn [eval]. rewrite atoms_wf, andb_true_r.
    destruct (eval (atoms b) clash) eqn:E; [|reflexivity]. exfalso. apply Hc, clash_spec. exact E.
  - apply nodup_split. rewrite items_keep. apply (decls_ok_sound _ _ _ _ crate_decls). apply atoms_wf.
  - apply no_error. exact Hf.
Qed.
Print Assumptions C58_compiles_partial.

(** FINDING.  The one exception: with [chacha20_backend="avx512"] but not
    [chacha20_avx512], the field [tokens] has the type of the run-time detection branch
    ([lib.rs:109]) while [new_internal] gives it [()] ([lib.rs:169]). *)
Theorem C58_half_avx512_refuted b : half_avx512 b -> any_feature b ->
  In (Use "crate::Tokens" "()") (items b) /\ In (Decl "crate::Tokens" "(avx2, sse2)") (items b) /\ ~ accepted (items b).
Proof.
  intros H1 H2. assert (E : eval (atoms b) clash = true) by (apply clash_spec; split; assumption).
  set (e := atoms b) in *.
  assert (U : In (Use "crate::Tokens" "()") (items b)).
  { rewrite items_keep. apply in_keep.
    set (c := CAnd (CAnd (CAnd (CAnd CTrue cipher_or_rng) (CNot BSoft)) any_x86) BAvx512).
    exists c. split.
    - assert (X : existsb (fun x => match x with
         | (CAnd (CAnd (CAnd (CAnd CTrue (COr (CAtom FCipher) (CAtom FRng))) (CNot (CAtom BSoft))) (COr (CAtom AX86) (CAtom AX86_64))) (CAtom BAvx512), Use n t) =>
             String.eqb n "crate::Tokens" && String.eqb t "()"
         | _ => false end) table = true) by (vm_compute; reflexivity).
      apply existsb_exists in X. destruct X as ([c' x] & Hi & X).
      repeat match type of X with context [match ?y with _ => _ end] => is_var y; destruct y; try discriminate X end.
      apply andb_prop in X. destruct X as [X1 X2]. apply String.eqb_eq in X1, X2. subst. exact Hi.
    - revert E. fold e. assert (W := atoms_wf b). fold e in W. intros E.
      apply (under_eval e clash wf); [|exact E|exact W]. apply (taut_sound e 24). vm_compute. reflexivity. }
  assert (D : In (Decl "crate::Tokens" "(avx2, sse2)") (items b)).
  { assert (W := atoms_wf b). fold e in W.
    assert (X : eval e (declares "crate::Tokens" "(avx2, sse2)" table) = true).
    { apply (under_eval e clash wf); [|exact E|exact W]. apply (taut_sound e 24). vm_compute. reflexivity. }
    apply declares_spec in X. destruct X as (t' & Hi & [X|X]); [discriminate|]. subst t'. rewrite items_keep. exact Hi. }
  split; [exact U|]. split; [exact D|]. intros (A1 & A2 & _).
  destruct (A1 _ _ U) as (t' & Hi & [X|X]); [discriminate|]. subst t'.
  apply in_split in D. destruct D as (l1 & l2 & D). rewrite D in Hi. apply (A2 _ _ _ _ "()" D).
  apply in_app_or in Hi. apply in_or_app. destruct Hi as [Hi|[Hi|Hi]]; [left; exact Hi | discriminate | right; exact Hi].
Qed.
Print Assumptions C58_half_avx512_refuted.
(** So these two conditions say exactly which builds are accepted. *)
Theorem C58_exactly b : accepted (items b) <-> features_enabled b /\ ~ (half_avx512 b /\ any_feature b).
Proof.
  split.
  - intros H. split; [apply no_error; apply H|]. intros [H1 H2]. apply (C58_half_avx512_refuted b H1 H2). exact H.
  - intros [H1 H2]. apply C58_compiles_partial; assumption.
Qed.
Print Assumptions C58_exactly.

(** ** The dispatch model *)
(** The configuration of the dispatch model that a build amounts to. *)
Definition config_of (b : build) : ChaChaDispatch.config := {|
  ChaChaDispatch.c_target := match b_arch b with
    | X86_32 | X86_64 => ChaChaDispatch.X86
    | Aarch64 => if t_neon b then ChaChaDispatch.Aarch64Neon else ChaChaDispatch.OtherTarget
    | OtherArch => ChaChaDispatch.OtherTarget
    end;
  ChaChaDispatch.c_backend := match b_backend b with
    | Unset => ChaChaDispatch.NoCfg | Soft => ChaChaDispatch.CfgSoft | Sse2 => ChaChaDispatch.CfgSse2
    | Avx2 => ChaChaDispatch.CfgAvx2 | Avx512 => ChaChaDispatch.CfgAvx512
    end;
  ChaChaDispatch.c_avx512 := b_avx512 b |}.
Definition module_of (k : Isa.backend) : string :=
  match k with
  | Isa.BSoft => "crate::backends::soft" | Isa.BSse2 => "crate::backends::sse2" | Isa.BAvx2 => "crate::backends::avx2"
  | Isa.BAvx512 => "crate::backends::avx512" | Isa.BNeon => "crate::backends::neon"
  end.
(** When a build selects a module for the cipher, respectively for the generator. *)
Definition cipher_cond (k : Isa.backend) : cfg :=
  match k with
  | Isa.BSoft => COr BSoft (COr (CAnd any_x86 (CAnd (CNot BSse2) (CNot (COr BAvx2 (CAnd CAvx512 BAvx512)))))
                                (CAnd (CNot any_x86) (CNot neon_target)))
  | Isa.BSse2 => CAnd (CNot BSoft) (CAnd any_x86 (COr BSse2 (CNot (COr BAvx2 (CAnd CAvx512 BAvx512)))))
  | Isa.BAvx2 => CAnd (CNot BSoft) (CAnd any_x86 (COr BAvx2 (CNot (COr BSse2 (CAnd CAvx512 BAvx512)))))
  | Isa.BAvx512 => CAnd (CNot BSoft) (CAnd any_x86 (CAnd CAvx512 (CNot (COr BAvx2 BSse2))))
  | Isa.BNeon => CAnd (CNot BSoft) (CAnd (CNot any_x86) neon_target)
  end.
Definition rng_cond (k : Isa.backend) : cfg :=
  match k with
  | Isa.BSoft => COr BSoft (COr (CAnd any_x86 (CNot (COr BSse2 (COr BAvx2 BAvx512)))) (CAnd (CNot any_x86) (CNot neon_target)))
  | Isa.BSse2 => CAnd (CNot BSoft) (CAnd any_x86 (COr BSse2 (CNot (COr BAvx2 BAvx512))))
  | Isa.BAvx2 => CAnd (CNot BSoft) (CAnd any_x86 (COr BAvx2 (COr BAvx512 (CNot BSse2))))
  | Isa.BAvx512 => CFalse
  | Isa.BNeon => CAnd (CNot BSoft) (CAnd (CNot any_x86) neon_target)
  end.
Lemma cipher_cond_ok b p : eval (atoms b) (cipher_cond (Isa.cipher_backend (config_of b) p)) = true.
Proof.
  destruct p as [p1 p2 p3]. unfold Isa.cipher_backend, config_of. cbn [ChaChaDispatch.c_target ChaChaDispatch.c_backend
    ChaChaDispatch.c_avx512 ChaChaDispatch.has_avx512 ChaChaDispatch.has_avx2 ChaChaDispatch.has_sse2].
  destruct b as [c r l x z a n s v f vl k b]. cbn [b_arch b_backend b_avx512 t_neon].
  destruct a, k, b, n, p1, p2, p3; reflexivity.
Qed.
Lemma rng_cond_ok b p : eval (atoms b) (rng_cond (Isa.rng_backend (config_of b) p)) = true.
Proof.
  destruct p as [p1 p2 p3]. unfold Isa.rng_backend, config_of. cbn [ChaChaDispatch.c_target ChaChaDispatch.c_backend
    ChaChaDispatch.c_avx512 ChaChaDispatch.has_avx512 ChaChaDispatch.has_avx2 ChaChaDispatch.has_sse2].
  destruct b as [c r l x z a n s v f vl k b]. cbn [b_arch b_backend b_avx512 t_neon].
  destruct a, k, b, n, p2, p3; reflexivity.
Qed.
Lemma declared b h n : eval (atoms b) h = true -> taut 24 (under h wf (declares n "" table)) = true -> In (Decl n "") (items b).
Proof.
  intros H T. apply (taut_sound (atoms b)) in T. apply (under_eval _ h wf) in T; [|exact H|apply atoms_wf].
  apply declares_spec in T. destruct T as (t' & Hi & [X|X]); [discriminate|]. subst t'. rewrite items_keep. exact Hi.
Qed.
(** Whatever the CPU, the backend that the cipher (the generator) runs according to
    [Isa.process_with_backend_runs] ([Isa.generate_runs]) is compiled in, with the
    function that is called. *)
Theorem C58_dispatch b p :
  (atoms b FCipher = true ->
     let k := Isa.cipher_backend (config_of b) p in
     In (Decl (module_of k) "") (items b)
     /\ In (Decl (module_of k ++ match k with Isa.BSoft => "::Backend" | _ => "::inner" end) "") (items b))
  /\ (f_rng b = true ->
     let k := Isa.rng_backend (config_of b) p in
     In (Decl (module_of k) "") (items b)
     /\ In (Decl (module_of k ++ match k with Isa.BSoft => "::Backend::gen_ks_blocks" | _ => "::rng_inner" end) "") (items b)).
Proof.
  split; intros H; cbv zeta.
  - assert (X : forall k, eval (atoms b) (cipher_cond k) = true -> eval (atoms b) (CAnd FCipher (cipher_cond k)) = true).
    { intros k E. cbn [eval]. rewrite H, E. reflexivity. }
    specialize (X _ (cipher_cond_ok b p)). destruct (Isa.cipher_backend (config_of b) p);
      split; apply (declared b _ _ X); vm_compute; reflexivity.
  - assert (X : forall k, eval (atoms b) (rng_cond k) = true -> eval (atoms b) (CAnd FRng (rng_cond k)) = true).
    { intros k E. cbn [eval]. rewrite E. change (atoms b FRng) with (f_rng b). rewrite H. reflexivity. }
    specialize (X _ (rng_cond_ok b p)). destruct (Isa.rng_backend (config_of b) p);
      split; try (apply (declared b _ _ X); vm_compute; reflexivity); cbn [rng_cond eval] in X; rewrite andb_false_r in X; discriminate.
Qed.
Print Assumptions C58_dispatch.
(** [ChaChaDispatch.compiles] and [Isa.build_requires], which other theorems assume, are
    what [accepted] says of the crate. *)
Definition static (b : build) (x : Isa.ext) : bool :=
  match x with
  | Isa.SSE2 => t_sse2 b | Isa.AVX2 => t_avx2 b | Isa.AVX512F => t_avx512f b | Isa.AVX512VL => t_avx512vl b
  | Isa.NEON => t_neon b | _ => false
  end.
Theorem C58_compiles_is b : any_feature b ->
  (accepted (items b) <->
   ChaChaDispatch.compiles (config_of b) = true /\ Forall (fun x => static b x = true) (Isa.build_requires (config_of b))).
Proof.
  intros H. rewrite C58_exactly.
  unfold features_enabled, half_avx512, on_x86, ChaChaDispatch.compiles, Isa.build_requires, config_of.
  cbn [ChaChaDispatch.c_target ChaChaDispatch.c_backend ChaChaDispatch.c_avx512].
  destruct b as [c r l x z a n s v f vl k b]. cbn [b_arch b_backend b_avx512 t_neon t_sse2 t_avx2 t_avx512f t_avx512vl] in *.
  assert (F : forall P : Isa.ext -> Prop, Forall P [] <-> True) by (intros; split; [tauto | constructor]).
  assert (F1 : forall (P : Isa.ext -> Prop) y z, Forall P (y :: z) <-> P y /\ Forall P z).
  { intros. split; [intros X; inversion X; auto | intros [? ?]; constructor; assumption]. }
  destruct a, k, b, n; rewrite ?F1, ?F; cbn [static t_neon t_sse2 t_avx2 t_avx512f t_avx512vl]; intuition congruence.
Qed.
Print Assumptions C58_compiles_is.

(** Concrete builds: everything on, run-time detection, on x86-64; the AVX-512 build; the
    default features on 32-bit ARM; no features at all; and the exception. *)
Definition b_full := {| f_cipher := true; f_rng := true; f_legacy := true; f_xchacha := true; f_zeroize := true;
  b_arch := X86_64; t_neon := false; t_sse2 := true; t_avx2 := false; t_avx512f := false; t_avx512vl := false;
  b_backend := Unset; b_avx512 := true |}.
Definition b_avx := {| f_cipher := false; f_rng := true; f_legacy := false; f_xchacha := true; f_zeroize := false;
  b_arch := X86_64; t_neon := false; t_sse2 := true; t_avx2 := true; t_avx512f := true; t_avx512vl := true;
  b_backend := Avx512; b_avx512 := true |}.
Definition b_arm := {| f_cipher := true; f_rng := false; f_legacy := false; f_xchacha := false; f_zeroize := false;
  b_arch := OtherArch; t_neon := true; t_sse2 := false; t_avx2 := false; t_avx512f := false; t_avx512vl := false;
  b_backend := Unset; b_avx512 := false |}.
Definition b_none := {| f_cipher := false; f_rng := false; f_legacy := false; f_xchacha := false; f_zeroize := true;
  b_arch := X86_32; t_neon := false; t_sse2 := false; t_avx2 := false; t_avx512f := false; t_avx512vl := false;
  b_backend := Avx512; b_avx512 := false |}.
Definition b_half := {| f_cipher := true; f_rng := false; f_legacy := false; f_xchacha := false; f_zeroize := false;
  b_arch := X86_64; t_neon := false; t_sse2 := true; t_avx2 := true; t_avx512f := true; t_avx512vl := true;
  b_backend := Avx512; b_avx512 := false |}.
Example C58_satisfiable :
  (accepted (items b_full) /\ length (items b_full) = 701)
  /\ (accepted (items b_avx) /\ length (items b_avx) = 483)
  /\ (accepted (items b_arm) /\ length (items b_arm) = 175)
  /\ accepted (items b_none)
  /\ half_avx512 b_half /\ any_feature b_half /\ ~ accepted (items b_half).
Proof.
  split; [split; [|vm_compute; reflexivity]|split; [split; [|vm_compute; reflexivity]|split; [split; [|vm_compute; reflexivity]|split]]].
  1-4: apply C58_exactly; unfold features_enabled, half_avx512, any_feature, on_x86; cbn; intuition congruence.
  assert (X : half_avx512 b_half) by (unfold half_avx512, on_x86; cbn; auto).
  assert (Y : any_feature b_half) by (left; reflexivity).
  split; [exact X|]. split; [exact Y|]. apply C58_half_avx512_refuted; assumption.
Qed.
(** [accepted] is not trivial: removing one import, or a module, is noticed. *)
Example C58_strict :
  ~ accepted [Use "crate::chacha::Block" ""] /\ ~ accepted [Decl "a" ""; Decl "a" ""]
  /\ ~ accepted (active (atoms b_arm) (Cat (externs) chacha_rs)).
Proof.
  split; [|split].
  - intros (H & _). destruct (H _ _ (or_introl eq_refl)) as (t' & [X|[]] & _). discriminate.
  - intros (_ & H & _). apply (H [] [Decl "a" ""] "a" "" "" eq_refl). left. reflexivity.
  - intros (H & _). destruct (H "crate::ChaChaCore" "") as (t' & X & _).
    + vm_compute. tauto.
    + vm_compute in X. intuition discriminate.
Qed.
