(** C92: what the documentation promises.  Each theorem quotes the sentence it is about;
    those that do not hold of the code are refuted, with what holds instead. *)
From Coq Require Import String.
From Verif Require Import Word Res WordLemmas Hex PropCommon SpecChaCha SpecRng SpecStream ChaChaCore ChaChaBackend
  ChaChaProofs ChaChaDispatch Isa Ciphers WrapperProofs CiphersProofs StreamLemmas PropertiesStream BlockRng ChaChaRng RngProofs PropertiesRng.
From Verif Require Cfg CfgProofs PropertiesCfg.
From Coq Require Import NArith List Lia ZifyBool ZifyNat ZifyN.
Import ListNotations.
Local Open Scope N_scope.
Local Open Scope list_scope.

(** ** The amount of data *)
(** [chacha20/README.md:20-22]: "This implementation internally uses 32-bit counter [...]
    it does not allow encryption of more than 256 GiB of data." *)
Definition GiB : N := 2 ^ 30.
Definition at_most (e : env) (c : cipher) (limit : N) : Prop :=
  forall chunks outs, Forall (short e) chunks -> cipher_run e c (map Apply chunks) = Ok (map Bytes outs) ->
  N.of_nat (List.length (concat outs)) <= limit.
Definition chacha (c : cipher) : Prop := match c with CChaCha _ _ _ _ | CXChaCha _ _ _ => True | _ => False end.
Definition legacy (c : cipher) : bool := match c with CChaCha Legacy _ _ _ => true | _ => false end.
(** Applying data in chunks of any sizes, from the start of the stream. *)
Lemma track_applies : forall chunks outs p, List.length chunks = List.length outs ->
  track p (map Apply chunks) (map Bytes outs) = p + N.of_nat (List.length (concat outs)).
Proof.
  induction chunks as [|d chunks IH]; intros [|o outs] p H; try discriminate H; cbn [map track concat List.length N.of_nat]; [symmetry; apply N.add_0_r|].
  cbn [moved]. rewrite IH by (cbn in H; lia). rewrite app_length. lia.
Qed.
Lemma limit_ok e c L : env_ok e -> cipher_ok c -> last_byte c = Some L -> at_most e c L.
Proof.
  intros He Hc HL chunks. induction chunks as [|d chunks IH] using rev_ind; intros outs Hs E.
  - rewrite cipher_run_ok in E by (try assumption; constructor). cbn [map run_spec] in E. destruct outs; [cbn; lia|discriminate E].
  - apply Forall_app in Hs as [Hs Hd]. inversion Hd as [|? ? Hd' _]; subst.
    rewrite map_app in E. cbn [map] in E.
    pose proof (short_calls e chunks Hs) as Hca.
    assert (Hcd : Forall (call_ok e) (map Apply chunks ++ [Apply d])) by (apply Forall_app; split; [exact Hca|constructor; [exact Hd'|constructor]]).
    assert (X : exists rs, cipher_run e c (map Apply chunks) = Ok rs).
    { rewrite cipher_run_ok in E by assumption. rewrite cipher_run_ok by assumption.
      rewrite run_spec_app in E. destruct (run_spec _ _ _ 0 (map Apply chunks)) as [[rs p]|]; [eexists; reflexivity|discriminate E]. }
    destruct X as [rs E0]. pose proof (C18_limit e c _ rs d He Hc Hca Hd' E0) as K. cbv zeta in K. rewrite HL in K.
    assert (Hlen : List.length rs = List.length chunks).
    { rewrite cipher_run_ok in E0 by assumption. destruct (run_spec _ _ _ 0 (map Apply chunks)) as [[rs' p]|] eqn:E1; [|discriminate E0].
      injection E0 as ->. apply run_spec_length in E1. rewrite map_length in E1. exact E1. }
    (* the answers so far are those of the longer run *)
    assert (Hpre : exists outs0, rs = map Bytes outs0).
    { rewrite cipher_run_ok in E by assumption. rewrite cipher_run_ok in E0 by assumption.
      rewrite run_spec_app in E. destruct (run_spec _ _ _ 0 (map Apply chunks)) as [[rs' p]|]; [|discriminate E0]. injection E0 as ->.
      destruct (run_spec _ _ _ p [Apply d]) as [[rs2 p2]|]; [|discriminate E]. injection E as E.
      exists (firstn (List.length rs) outs). rewrite <- firstn_map, <- E, firstn_app, Nat.sub_diag, firstn_all. cbn [firstn]. rewrite app_nil_r. reflexivity. }
    destruct Hpre as [outs0 ->]. specialize (IH outs0 Hs E0). rewrite map_length in Hlen.
    rewrite track_applies, N.add_0_l in K by (symmetry; exact Hlen). specialize (K IH). destruct K as [K _].
    rewrite K in E. injection E as E. destruct (N.leb_spec (N.of_nat (List.length (concat outs0)) + N.of_nat (List.length d)) L) as [Hle|Hgt].
    + assert (Eo : outs = outs0 ++ [xored c (N.of_nat (List.length (concat outs0))) d]).
      { assert (Inj : forall a b : list (list N), map Bytes a = map Bytes b -> a = b).
        { induction a as [|x a IHa]; intros [|y b] Hab; try discriminate Hab; [reflexivity|]. cbn in Hab. injection Hab as -> Hab. f_equal. apply IHa, Hab. }
        apply Inj. rewrite map_app. symmetry. exact E. }
      rewrite Eo, concat_app, app_length. cbn [concat]. rewrite app_nil_r. unfold xored.
      rewrite map_length, combine_length, map_length, seq_length, Nat.min_id. lia.
    + exfalso. apply (f_equal (@rev _)) in E. rewrite rev_app_distr, <- !map_rev in E. cbn [rev app] in E.
      destruct (rev outs); discriminate E.
Qed.
(** It is so for the types with a 96-bit or 192-bit nonce ... *)
Theorem C92_data_limit_partial e c : env_ok e -> cipher_ok c -> chacha c -> legacy c = false ->
  at_most e c (256 * GiB - 64)
  /\ forall chunks, Forall (short e) chunks -> N.of_nat (List.length (concat chunks)) <= 256 * GiB - 64 ->
       exists outs, cipher_run e c (map Apply chunks) = Ok (map Bytes outs) /\ concat outs = xored c 0 (concat chunks).
Proof.
  intros He Hc Hk Hl.
  assert (HL : last_byte c = Some (256 * GiB - 64)) by (destruct c as [[] | | | | | | | ]; try contradiction Hk; try discriminate Hl; reflexivity).
  split; [apply limit_ok; assumption|]. intros chunks Hs Hn.
  destruct (C13_chunking e c chunks He Hc Hs) as (outs & E & _ & Ec); [|eauto]. unfold fits. rewrite HL. exact Hn.
Qed.
Print Assumptions C92_data_limit_partial.
(** ... and not so for [ChaCha20Legacy], the type the sentence is about: it counts in 64
    bits, and encrypts 2^32 times as much. *)
Theorem C92_data_limit_refuted e n key iv : env_ok e -> e_usz e = 64 -> cipher_ok (CChaCha Legacy n key iv) ->
  ~ at_most e (CChaCha Legacy n key iv) (256 * GiB)
  /\ at_most e (CChaCha Legacy n key iv) (2 ^ 32 * (256 * GiB) - 64)
  /\ forall chunks, Forall (short e) chunks -> N.of_nat (List.length (concat chunks)) <= 2 ^ 32 * (256 * GiB) - 64 ->
       exists outs, cipher_run e (CChaCha Legacy n key iv) (map Apply chunks) = Ok (map Bytes outs)
       /\ concat outs = xored (CChaCha Legacy n key iv) 0 (concat chunks).
Proof.
  intros He Hu Hc. set (c := CChaCha Legacy n key iv) in *.
  assert (HL : last_byte c = Some (2 ^ 32 * (256 * GiB) - 64)) by reflexivity.
  assert (Hall : forall chunks, Forall (short e) chunks -> N.of_nat (List.length (concat chunks)) <= 2 ^ 32 * (256 * GiB) - 64 ->
    exists outs, cipher_run e c (map Apply chunks) = Ok (map Bytes outs) /\ map (@List.length N) outs = map (@List.length N) chunks
      /\ concat outs = xored c 0 (concat chunks)).
  { intros chunks Hs Hn. apply C13_chunking; try assumption. }
  split; [|split].
  - intros X. set (m := N.to_nat (256 * GiB + 1)). assert (Hm : N.of_nat m = 256 * GiB + 1) by (unfold m; apply N2Nat.id). clearbody m.
    assert (Hs : Forall (short e) [repeat 0 m]).
    { constructor; [|constructor]. unfold short. rewrite repeat_length, Hu, Hm. reflexivity. }
    destruct (Hall [repeat 0 m] Hs) as (outs & E & El & _).
    { cbn [concat]. rewrite app_nil_r, repeat_length, Hm. discriminate. }
    specialize (X _ _ Hs E). cbn [map] in El. rewrite repeat_length in El. destruct outs as [|o [|]]; try discriminate El.
    injection El as El. cbn [concat] in X. rewrite app_nil_r, El, Hm in X. apply X. reflexivity.
  - apply limit_ok; assumption.
  - intros chunks Hs Hn. destruct (Hall chunks Hs Hn) as (outs & E & _ & Ec). eauto.
Qed.
Print Assumptions C92_data_limit_refuted.

(** ** The panic of the constructor *)
(** [lib.rs:135-136], of the private [new_internal]: "# Panics If [iv.len()] is not equal to 4, 8, or 12."
    With 4 it always panics, with 8 and 12 for one of the two variants. *)
Theorem C92_new_internal_panics v key iv :
  new_internal v key iv = Panic <-> List.length iv <> match v with Ietf => 12%nat | Legacy => 8%nat end.
Proof.
  unfold new_internal. destruct v; cbn [counter_size Nat.div fst Nat.divmod repeat firstn skipn List.length Nat.eqb CONSTANTS Nat.mul Nat.add assert_ bind];
    do 13 (destruct iv as [|? iv]; [cbn; split; congruence|]); cbn; split; congruence.
Qed.
Print Assumptions C92_new_internal_panics.
Theorem C92_new_internal_refuted : exists k, In k [4%nat; 8%nat; 12%nat] /\
  forall v key iv, List.length iv = k -> new_internal v key iv = Panic.
Proof. exists 4%nat. split; [cbn; auto|]. intros v key iv H. apply C92_new_internal_panics. rewrite H. destruct v; discriminate. Qed.
Print Assumptions C92_new_internal_refuted.

(** ** The configuration flags *)
Section Flags.
Import Cfg CfgProofs PropertiesCfg.
Local Open Scope string_scope.
Definition with_flags (b : build) (k : forced) (x : bool) : build := {|
  f_cipher := f_cipher b; f_rng := f_rng b; f_legacy := f_legacy b; f_xchacha := f_xchacha b; f_zeroize := f_zeroize b;
  b_arch := b_arch b; t_neon := t_neon b; t_sse2 := t_sse2 b; t_avx2 := t_avx2 b; t_avx512f := t_avx512f b; t_avx512vl := t_avx512vl b;
  b_backend := k; b_avx512 := x |}.
(** Conditions that do not mention the flags, once the x86 atoms are false. *)
Definition off_x86 (c : cfg) : cfg := subst AX86 false (subst AX86_64 false c).
Fixpoint flagless (c : cfg) : bool :=
  match c with
  | CTrue => true
  | CAtom BSse2 | CAtom BAvx2 | CAtom BAvx512 | CAtom CAvx512 => false
  | CAtom _ => true
  | CNot c => flagless c
  | CAnd c d | COr c d => flagless c && flagless d
  end.
Lemma flagless_eval e e' c : (forall a, flagless (CAtom a) = true -> e a = e' a) -> flagless c = true -> eval e c = eval e' c.
Proof.
  intros H. induction c as [|a|c IH|c IHc d IHd|c IHc d IHd]; cbn [eval]; intros F.
  - reflexivity.
  - apply H. exact F.
  - rewrite IH by exact F. reflexivity.
  - cbn [flagless] in F. apply andb_prop in F as [F1 F2]. rewrite IHc, IHd by assumption. reflexivity.
  - cbn [flagless] in F. apply andb_prop in F as [F1 F2]. rewrite IHc, IHd by assumption. reflexivity.
Qed.
Lemma table_flagless : forallb (fun x => flagless (off_x86 (fst x))) table = true.
Proof. vm_compute. reflexivity. Qed.
Lemma off_x86_eval b c : ~ on_x86 b -> eval (atoms b) (off_x86 c) = eval (atoms b) c.
Proof.
  intros H. unfold on_x86 in H. unfold off_x86.
  assert (E1 : atoms b AX86 = false) by (cbn; destruct (b_arch b); intuition congruence).
  assert (E2 : atoms b AX86_64 = false) by (cbn; destruct (b_arch b); intuition congruence).
  assert (G : forall a c0, atoms b a = false -> eval (atoms b) (subst a false c0) = eval (atoms b) c0).
  { intros a c0 E. pose proof (subst_eval (atoms b) a c0) as X. rewrite E in X. exact X. }
  rewrite (G _ _ E1), (G _ _ E2). reflexivity.
Qed.
End Flags.
(** [README.md:92-98]: "Ignored on non-x86(_64) targets.": nothing of the crate depends on
    the flags "sse2", "avx2", "avx512" or [chacha20_avx512] there. *)
Theorem C92_ignored b k x : ~ PropertiesCfg.on_x86 b -> Cfg.b_backend b <> Cfg.Soft -> k <> Cfg.Soft ->
  Cfg.items (with_flags b k x) = Cfg.items b
  /\ forall p, cipher_backend (PropertiesCfg.config_of (with_flags b k x)) p = cipher_backend (PropertiesCfg.config_of b) p
            /\ rng_backend (PropertiesCfg.config_of (with_flags b k x)) p = rng_backend (PropertiesCfg.config_of b) p.
Proof.
  intros Hx Hb Hk. split.
  - rewrite !CfgProofs.items_keep.
    assert (Hx' : ~ PropertiesCfg.on_x86 (with_flags b k x)) by exact Hx.
    assert (H : forall c, flagless (off_x86 c) = true -> Cfg.eval (Cfg.atoms (with_flags b k x)) c = Cfg.eval (Cfg.atoms b) c).
    { intros c Hc. rewrite <- (off_x86_eval b c Hx), <- (off_x86_eval _ c Hx'). apply flagless_eval; [|exact Hc].
      intros a Ha. destruct a; try discriminate Ha; try reflexivity. cbn. destruct k, (Cfg.b_backend b); congruence. }
    pose proof table_flagless as T. induction CfgProofs.table as [|[c i] l IH]; [reflexivity|].
    cbn [forallb fst] in T. apply andb_prop in T as [T1 T2]. specialize (IH T2). unfold CfgProofs.keep in *. cbn [filter map fst flat_map] in *.
    rewrite (H c T1). destruct (Cfg.eval (Cfg.atoms b) c); cbn [map]; [f_equal|]; exact IH.
  - intros p. unfold PropertiesCfg.on_x86 in Hx. destruct b as [c r l xc z a n s v f vl kb bx].
    cbn [Cfg.b_arch Cfg.b_backend] in *. unfold cipher_backend, rng_backend, PropertiesCfg.config_of, with_flags.
    cbn [Cfg.b_arch Cfg.b_backend Cfg.t_neon Cfg.b_avx512 c_target c_backend c_avx512].
    destruct a; try (exfalso; apply Hx; auto; fail); destruct n, kb, k; try (exfalso; congruence); split; reflexivity.
Qed.
Print Assumptions C92_ignored.
(** [README.md:96]: "[chacha20_backend="soft"]: force software backend." *)
Theorem C92_soft b p : Cfg.b_backend b = Cfg.Soft ->
  PropertiesCfg.accepted (Cfg.items b)
  /\ cipher_backend (PropertiesCfg.config_of b) p = BSoft /\ rng_backend (PropertiesCfg.config_of b) p = BSoft.
Proof.
  intros H. split; [|unfold cipher_backend, rng_backend, PropertiesCfg.config_of; cbn; rewrite H; auto].
  apply PropertiesCfg.C58_exactly. unfold PropertiesCfg.features_enabled, PropertiesCfg.half_avx512. rewrite H. intuition congruence.
Qed.
Print Assumptions C92_soft.
(** [README.md:92-93] and [README.md:97-98]: "force AVX2 [SSE2] backend on x86/x86_64
    targets. Requires enabled AVX2 [SSE2] target feature."  The build fails without the
    feature and succeeds with it, and then that backend runs on every CPU, for the ciphers
    and for the generators. *)
Theorem C92_avx2_sse2 b : PropertiesCfg.on_x86 b ->
  (Cfg.b_backend b = Cfg.Avx2 -> (PropertiesCfg.accepted (Cfg.items b) <-> Cfg.t_avx2 b = true)
     /\ forall p, cipher_backend (PropertiesCfg.config_of b) p = BAvx2 /\ rng_backend (PropertiesCfg.config_of b) p = BAvx2)
  /\ (Cfg.b_backend b = Cfg.Sse2 -> (PropertiesCfg.accepted (Cfg.items b) <-> Cfg.t_sse2 b = true)
     /\ forall p, cipher_backend (PropertiesCfg.config_of b) p = BSse2 /\ rng_backend (PropertiesCfg.config_of b) p = BSse2).
Proof.
  intros Hx. rewrite PropertiesCfg.C58_exactly. unfold PropertiesCfg.features_enabled, PropertiesCfg.half_avx512.
  unfold cipher_backend, rng_backend, PropertiesCfg.config_of. cbn [c_target c_backend c_avx512].
  destruct b as [c r l xc z a n s v f vl kb bx]. unfold PropertiesCfg.on_x86 in *. cbn [Cfg.b_arch Cfg.b_backend Cfg.t_avx2 Cfg.t_sse2 Cfg.b_avx512] in *.
  split; intros ->; (split; [intuition congruence|]); intros p; destruct Hx as [-> | ->]; auto.
Qed.
Print Assumptions C92_avx2_sse2.
(** [README.md:94-95]: "force AVX-512 backend on x86/x86_64 targets. Requires enabled
    AVX-512 target feature": also required is [chacha20_avx512], which the README asks for
    only with autodetection, and the generators run the AVX2 backend. *)
Theorem C92_avx512_refuted b : PropertiesCfg.on_x86 b -> Cfg.b_backend b = Cfg.Avx512 ->
  Cfg.t_avx512f b = true -> Cfg.t_avx512vl b = true -> PropertiesCfg.any_feature b ->
  (PropertiesCfg.accepted (Cfg.items b) <-> Cfg.b_avx512 b = true)
  /\ forall p, rng_backend (PropertiesCfg.config_of b) p = BAvx2
            /\ (Cfg.b_avx512 b = true -> cipher_backend (PropertiesCfg.config_of b) p = BAvx512).
Proof.
  intros Hx Hb Hf Hv Ha. rewrite PropertiesCfg.C58_exactly. unfold PropertiesCfg.features_enabled, PropertiesCfg.half_avx512.
  unfold cipher_backend, rng_backend, PropertiesCfg.config_of. cbn [c_target c_backend c_avx512]. rewrite Hb. split.
  - destruct (Cfg.b_avx512 b); intuition congruence.
  - intros p. split; [destruct Hx as [-> | ->]; reflexivity|]. intros ->. destruct Hx as [-> | ->]; reflexivity.
Qed.
Print Assumptions C92_avx512_refuted.
(** [README.md:100-101]: "To use the [...] AVX-512 support with autodetection, you must
    enable it using [chacha20_avx512]": without it no CPU gets AVX-512, with it exactly the
    CPUs that have it; the generators never do. *)
Theorem C92_autodetect b p : PropertiesCfg.on_x86 b -> Cfg.b_backend b = Cfg.Unset ->
  PropertiesCfg.accepted (Cfg.items b)
  /\ (cipher_backend (PropertiesCfg.config_of b) p = BAvx512 <-> Cfg.b_avx512 b = true /\ has_avx512 p = true)
  /\ rng_backend (PropertiesCfg.config_of b) p <> BAvx512.
Proof.
  intros Hx Hb. rewrite PropertiesCfg.C58_exactly. unfold PropertiesCfg.features_enabled, PropertiesCfg.half_avx512.
  split; [rewrite Hb; intuition congruence|].
  unfold cipher_backend, rng_backend, PropertiesCfg.config_of. cbn [c_target c_backend c_avx512]. rewrite Hb.
  destruct Hx as [-> | ->]; destruct (Cfg.b_avx512 b), (has_avx512 p), (has_avx2 p), (has_sse2 p); cbn; intuition congruence.
Qed.
Print Assumptions C92_autodetect.
(** [README.md:16-18]: "[XChaCha] [...] gated under the [xchacha] Cargo feature, and
    "legacy" [...] gated under the [legacy] crate feature"; likewise [rng] and [cipher]. *)
Theorem C92_gates b :
  (In (Cfg.Decl "crate::XChaCha20" "") (Cfg.items b) <-> Cfg.f_xchacha b = true)
  /\ (In (Cfg.Decl "crate::ChaCha20Legacy" "") (Cfg.items b) <-> Cfg.f_legacy b = true)
  /\ (In (Cfg.Decl "crate::ChaCha20Rng" "") (Cfg.items b) <-> Cfg.f_rng b = true)
  /\ (In (Cfg.Decl "crate::ChaCha20" "") (Cfg.items b) <-> Cfg.f_cipher b = true \/ Cfg.f_legacy b = true \/ Cfg.f_xchacha b = true).
Proof.
  assert (G : forall n a, CfgProofs.taut 24 (CfgProofs.under (Cfg.CAtom a) CfgProofs.wf (CfgProofs.declares n "" CfgProofs.table)) = true ->
    CfgProofs.taut 24 (CfgProofs.implies (CfgProofs.declares n "*" CfgProofs.table) (Cfg.CAtom a)) = true ->
    (In (Cfg.Decl n "") (Cfg.items b) <-> Cfg.atoms b a = true)).
  { intros n a T1 T2. split; intros H.
    - rewrite CfgProofs.items_keep in H. apply CfgProofs.declares_complete in H.
      apply (CfgProofs.taut_sound (Cfg.atoms b)) in T2. apply (CfgProofs.implies_eval _ _ _ T2 H).
    - apply (PropertiesCfg.declared b (Cfg.CAtom a)); [exact H | exact T1]. }
  split; [|split; [|split]].
  - apply (G "crate::XChaCha20"%string Cfg.FXchacha); vm_compute; reflexivity.
  - apply (G "crate::ChaCha20Legacy"%string Cfg.FLegacy); vm_compute; reflexivity.
  - apply (G "crate::ChaCha20Rng"%string Cfg.FRng); vm_compute; reflexivity.
  - rewrite (G "crate::ChaCha20"%string Cfg.FCipher) by (vm_compute; reflexivity). cbn [Cfg.atoms].
    rewrite !Bool.orb_true_iff. tauto.
Qed.
Print Assumptions C92_gates.

(** ** The generators *)
(** [rng.rs:109-112]: "allows 1 ZiB of output before cycling [...] Both counter and stream
    are initialized to zero": the generator is what it was exactly after multiples of
    1 ZiB = 2^70 bytes of output. *)
Definition ZiB : N := 2 ^ 70.
Lemma cycle_mod q t : q < 2 ^ 68 -> ((q + t) mod 2 ^ 68 = q <-> (4 * t) mod ZiB = 0).
Proof.
  intros Hq. change ZiB with (4 * 2 ^ 68). rewrite N.mul_mod_distr_l by discriminate.
  assert (Hm : 2 ^ 68 <> 0) by discriminate. revert Hq Hm. generalize (2 ^ 68). intros m Hq Hm. split; intros Hx.
  - pose proof (N.div_mod (q + t) m Hm) as D. rewrite Hx in D.
    replace t with (((q + t) / m) * m) by lia. rewrite N.mod_mul by exact Hm. reflexivity.
  - assert (Hx' : t mod m = 0) by lia. pose proof (N.div_mod t m Hm) as D. rewrite Hx' in D.
    replace (q + t) with (q + (t / m) * m) by lia. rewrite N.mod_add by exact Hm. apply N.mod_small. exact Hq.
Qed.
Theorem C92_cycle n c p ck r ds : reachable n r ->
  exists xs r', rng_run (rng_gen c p n) ck r (map draw_op ds) = Ok (xs, r')
  /\ (rng_eq r r' = true <-> (4 * N.of_nat (total ds)) mod ZiB = 0).
Proof.
  intros H. destruct (C24_accounting n c p ck r ds H) as (xs & r' & E & Ep). exists xs, r'. split; [exact E|].
  pose proof (reach_run n c p ck _ r xs r' H (draws_ok ds) E) as H'.
  destruct (run_at n c p ck r _ H (draws_ok ds) (or_intror (draws_no_gbp ds))) as (r2 & E2 & Ea).
  rewrite E in E2. assert (r2 = r') by congruence. subst r2. rewrite (proj2 (draws_carve n ds _)) in Ea.
  rewrite (C30_equality n r r' H H').
  assert (Es : get_seed r' = get_seed r /\ get_stream r' = get_stream r).
  { split; [apply (f_equal g_seed) in Ea | apply (f_equal g_stream) in Ea]; destruct ds; exact Ea. }
  destruct Es as [Es1 Es2]. unfold at_. rewrite Es1, Es2, Ep.
  pose proof (reach_pos n r H) as Hp. rewrite <- (cycle_mod (get_word_pos r) (N.of_nat (total ds))) by exact Hp. split; intros Hx.
  - apply (f_equal g_pos) in Hx. cbn [g_pos] in Hx. symmetry. exact Hx.
  - rewrite Hx. reflexivity.
Qed.
Print Assumptions C92_cycle.
(** [rng.rs:111], and [rng.rs:196-199] "the offset is a 68-bit number [...] the result can
    simply be multiplied by 4 to get a byte-offset": in the keystream of the cipher. *)
Theorem C92_offset n c p ck r len : reachable n r ->
  get_word_pos r < 2 ^ 68
  /\ exists r', rng_run (rng_gen c p n) ck r [Fill len]
       = Ok ([Buf (map (fun i => cipher_ks (CChaCha Legacy n (get_seed r) (rg_le 8 (get_stream r))) (4 * get_word_pos r + N.of_nat i)) (seq 0 len))], r').
Proof.
  intros H. pose proof (reach_pos n r H) as Hp. split; [exact Hp|].
  pose proof (reach_rel n r H) as (Hsl & Hsb & Hs & _). cbn [at_ g_seed g_stream] in *.
  destruct (C22_fill_is_keystream n c p ck (get_seed r) (get_stream r) (get_word_pos r) len (conj Hsl Hsb) Hs Hp) as (r0 & r1 & E0 & E1).
  destruct (C21_history n c p ck (get_seed r) [SetStream (get_stream r); SetWordPos (get_word_pos r); Fill len] (conj Hsl Hsb)) as (r0' & r1' & E0' & E1').
  - repeat constructor; cbn [rop_ok]; [exact Hs|]. transitivity (2 ^ 68); [exact Hp | reflexivity].
  - right. repeat constructor; discriminate.
  - rewrite E0 in E0'. assert (r0' = r0) by congruence. subst r0'. rewrite E1 in E1'.
    destruct (run_at n c p ck r [Fill len] H) as (r' & E & _); [repeat constructor | right; repeat constructor; discriminate|].
    exists r'. rewrite E. apply (f_equal (fun l => Ok (l, r'))).
    cbn [rg_run rg_step fst fresh g_seed rg_move g_stream g_pos] in E1'. cbn [rg_run rg_step fst at_ g_seed g_stream g_pos].
    assert (X : forall a b : rret, forall x y, @Ok (list rret * rng) ([Unit; Unit; a], x) = Ok ([Unit; Unit; b], y) -> a = b) by (intros; congruence).
    apply X in E1'. rewrite E1'. unfold rg_move, at_. cbn [g_seed g_stream]. rewrite (N.mod_small (get_word_pos r)) by exact Hp. reflexivity.
Qed.
Print Assumptions C92_offset.
Theorem C92_initial seed r : octets 32 seed -> rng_from_seed seed = Ok r ->
  get_seed r = seed /\ get_stream r = 0 /\ get_word_pos r = 0.
Proof.
  intros [Hl Hb] E. destruct (rel_from_seed cf0 pc0 0%nat seed Hl Hb) as (r' & E' & HR). rewrite E in E'. assert (r' = r) by congruence. subst r'.
  exact (rel_get cf0 pc0 0%nat r _ HR).
Qed.
Print Assumptions C92_initial.
(** [rng.rs:216-218], [rng.rs:235-239], [rng.rs:261]: "This value will be erased when calling
    [set_stream()], so call [set_stream()] before": positions set before leave no trace,
    positions set after count. *)
Theorem C92_erased n c p ck r s w b h : reachable n r -> s < 2 ^ 64 -> w < 2 ^ 128 -> b < 2 ^ 64 -> Forall rop_ok h -> no_gbp h ->
  exists xs r1 r2 r3 r4 r5,
  rng_run (rng_gen c p n) ck r (SetStream s :: h) = Ok (Unit :: xs, r1)
  /\ rng_run (rng_gen c p n) ck r (SetWordPos w :: SetStream s :: h) = Ok (Unit :: Unit :: xs, r2)
  /\ rng_run (rng_gen c p n) ck r (SetBlockPos b :: SetStream s :: h) = Ok (Unit :: Unit :: xs, r3)
  /\ rng_run (rng_gen c p n) ck r [SetStream s; SetWordPos w; GetStream; GetWordPos] = Ok ([Unit; Unit; Num s; Num (w mod 2 ^ 68)], r4)
  /\ rng_run (rng_gen c p n) ck r [SetStream s; SetBlockPos b; GetStream; GetWordPos] = Ok ([Unit; Unit; Num s; Num (b * 16)], r5).
Proof.
  intros H Hs Hw Hb Hok Hn.
  assert (Hsh : Forall rop_ok (SetStream s :: h)) by (constructor; assumption).
  assert (Hnh : no_gbp (SetStream s :: h)) by (constructor; [discriminate|assumption]).
  exists (fst (rg_run n {| g_seed := get_seed r; g_stream := s; g_pos := 0 |} h)).
  destruct (run_at n c p ck r (SetStream s :: h) H Hsh (or_intror Hnh)) as (r1 & E1 & _).
  destruct (run_at n c p ck r (SetWordPos w :: SetStream s :: h) H) as (r2 & E2 & _);
    [constructor; assumption | right; constructor; [discriminate|assumption]|].
  destruct (run_at n c p ck r (SetBlockPos b :: SetStream s :: h) H) as (r3 & E3 & _);
    [constructor; assumption | right; constructor; [discriminate|assumption]|].
  destruct (run_at n c p ck r [SetStream s; SetWordPos w; GetStream; GetWordPos] H) as (r4 & E4 & _);
    [repeat (constructor; [assumption || exact Logic.I|]); constructor | right; repeat (constructor; [discriminate|]); constructor|].
  destruct (run_at n c p ck r [SetStream s; SetBlockPos b; GetStream; GetWordPos] H) as (r5 & E5 & _);
    [repeat (constructor; [assumption || exact Logic.I|]); constructor | right; repeat (constructor; [discriminate|]); constructor|].
  exists r1, r2, r3, r4, r5. rewrite E1, E2, E3, E4, E5. cbn [rg_run rg_step rg_move at_ g_seed g_stream g_pos].
  destruct (rg_run n {| g_seed := get_seed r; g_stream := s; g_pos := 0 |} h) as [xs g]. cbn [fst].
  repeat (split; [reflexivity|]). change (2 ^ 64) with M64 in Hb. change (2 ^ 68) with (16 * M64).
  rewrite (N.mod_small (16 * b)) by lia. rewrite (N.mul_comm b). reflexivity.
Qed.
Print Assumptions C92_erased.
(** [rng.rs:109-110]: "2^64 unique streams of output per seed": two streams never hold the
    same generator state (and their blocks never have the same input: C53). *)
Theorem C92_streams n r r' : reachable n r -> reachable n r' -> get_stream r <> get_stream r' -> rng_eq r r' = false.
Proof.
  intros H H' Hne. destruct (rng_eq r r') eqn:E; [|reflexivity]. exfalso. apply Hne.
  apply (C30_equality n r r' H H') in E. apply (f_equal g_stream) in E. exact E.
Qed.
Print Assumptions C92_streams.
(** [rng.rs:293-295]: "Leaking serialized RNG state to an attacker defeats security
    properties provided by the RNG": from the 49 bytes alone one obtains every word of every
    stream of the seed, those already used included. *)
Theorem C92_leak n c p ck r : reachable n r ->
  exists a r0, serialize_state ck r = Ok a /\ deserialize_state (rng_gen c p n) a = Ok r0
  /\ forall s w, s < 2 ^ 64 -> w < 2 ^ 68 ->
       exists r1 r2 x, rng_run (rng_gen c p n) ck r0 [SetStream s; SetWordPos w; NextU32] = Ok ([Unit; Unit; Num x], r1)
       /\ rng_run (rng_gen c p n) ck r [SetStream s; SetWordPos w; NextU32] = Ok ([Unit; Unit; Num x], r2)
       /\ x = rg_word n (get_seed r) s w.
Proof.
  intros H. destruct (C29_round_trip n c p c p ck ck r H) as (a & r0 & Ea & Ed & _ & F). exists a, r0. split; [exact Ea|]. split; [exact Ed|].
  intros s w Hs Hw.
  assert (Hok : Forall rop_ok [SetStream s; SetWordPos w; NextU32]).
  { repeat constructor; cbn [rop_ok]; [exact Hs|]. transitivity (2 ^ 68); [exact Hw | reflexivity]. }
  assert (Hn : no_gbp [SetStream s; SetWordPos w; NextU32]) by (repeat constructor; discriminate).
  destruct (F _ Hok (or_intror Hn)) as (xs & r1 & r2 & E1 & E2 & _).
  destruct (run_at n c p ck r _ H Hok (or_intror Hn)) as (r3 & E3 & _). rewrite E1 in E3.
  assert (X : xs = fst (rg_run n (at_ r) [SetStream s; SetWordPos w; NextU32])) by congruence.
  exists r2, r1, (rg_word n (get_seed r) s w). rewrite E1, E2, X.
  cbn [rg_run rg_step fst at_ g_seed g_stream g_pos]. unfold rg_take, rg_move. cbn [seq map nth g_seed g_stream g_pos].
  rewrite N.mod_small by exact Hw. replace (w + N.of_nat 0) with w by (cbn; lia). repeat split.
Qed.
Print Assumptions C92_leak.

(** Concrete cases. *)
Definition ex_legacy : cipher := CChaCha Legacy 10 ex_key ex_nonce8.
Definition ex_ietf : cipher := CChaCha Ietf 10 ex_key ex_nonce12.
Example C92_satisfiable :
  (env_ok ex_env /\ e_usz ex_env = 64)
  /\ (cipher_ok ex_legacy /\ legacy ex_legacy = true) /\ (cipher_ok ex_ietf /\ chacha ex_ietf /\ legacy ex_ietf = false)
  /\ (~ PropertiesCfg.on_x86 PropertiesCfg.b_arm /\ Cfg.b_backend PropertiesCfg.b_arm <> Cfg.Soft)
  /\ (PropertiesCfg.on_x86 PropertiesCfg.b_half /\ Cfg.b_backend PropertiesCfg.b_half = Cfg.Avx512
      /\ Cfg.t_avx512f PropertiesCfg.b_half = true /\ Cfg.t_avx512vl PropertiesCfg.b_half = true
      /\ PropertiesCfg.any_feature PropertiesCfg.b_half /\ Cfg.b_avx512 PropertiesCfg.b_half = false)
  /\ (PropertiesCfg.on_x86 PropertiesCfg.b_full /\ Cfg.b_backend PropertiesCfg.b_full = Cfg.Unset /\ Cfg.b_avx512 PropertiesCfg.b_full = true)
  /\ (reachable 4 ex_rng /\ get_stream ex_rng = 5 /\ get_word_pos ex_rng = 90).
Proof.
  split; [exact (conj (proj1 all_ok) eq_refl)|]. split; [split; [split; checks|reflexivity]|].
  split; [split; [split; checks|split; [exact Logic.I|reflexivity]]|].
  split; [split; [intros [H|H]; discriminate H|discriminate]|].
  split; [repeat split; first [right; reflexivity | reflexivity | left; reflexivity]|].
  split; [repeat split; right; reflexivity|].
  split; [exact ex_rng_reachable|]. split; apply ex_rng_state.
Qed.
(** Block number 2^32 of [ChaCha20Legacy], just after the first 256 GiB. *)
Example C92_beyond : cipher_run ex_env ex_legacy [Seek (256 * GiB); Apply (repeat 0 4)] = Ok [Done; Bytes (map (fun i => cipher_ks ex_legacy (256 * GiB + N.of_nat i)) (seq 0 4))].
Proof.
  rewrite cipher_run_ok.
  - vm_compute. reflexivity.
  - apply all_ok.
  - split; checks.
  - repeat constructor.
Qed.
