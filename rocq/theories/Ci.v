(** The builds and test runs that the repository's continuous integration performs
    ([.github/workflows/*.yml]), as values of [Cfg.build].

    Simplifications: left out are the jobs that neither build nor run one of the crates
    differently from those here ([clippy], [rustfmt], [doc], [typos], [lockfile],
    [minimal-versions] with its action in another repository).  A matrix of toolchains and
    targets is the product, respectively the list, that the file gives. *)
From Verif Require Export CfgOthers.
Local Open Scope string_scope.

Inductive toolchain := Msrv (* 1.85.0 *) | Stable.
(** A target: what [target_arch] is, byte order, pointer width, and the target features on
    by default (rustc's target specifications). *)
Record target := { tg_arch : arch; tg_big : bool; tg_bits : nat; tg_neon : bool; tg_sse2 : bool }.
Definition thumbv7em := {| tg_arch := OtherArch; tg_big := false; tg_bits := 32; tg_neon := false; tg_sse2 := false |}.
Definition wasm32 := {| tg_arch := OtherArch; tg_big := false; tg_bits := 32; tg_neon := false; tg_sse2 := false |}.
Definition i686_linux := {| tg_arch := X86_32; tg_big := false; tg_bits := 32; tg_neon := false; tg_sse2 := true |}.
Definition x86_64_linux := {| tg_arch := X86_64; tg_big := false; tg_bits := 64; tg_neon := false; tg_sse2 := true |}.
Definition aarch64_linux := {| tg_arch := Aarch64; tg_big := false; tg_bits := 64; tg_neon := true; tg_sse2 := false |}.
Definition powerpc_linux := {| tg_arch := OtherArch; tg_big := true; tg_bits := 32; tg_neon := false; tg_sse2 := false |}.

(** [RUSTFLAGS]: the forced backend, [--cfg chacha20_avx512], [-Ctarget-feature=+avx2]. *)
Record flags := { fl_backend : forced; fl_avx512 : bool; fl_avx2 : bool }.
Definition no_flags := {| fl_backend := Unset; fl_avx512 := false; fl_avx2 := false |}.
Definition force (b : forced) := {| fl_backend := b; fl_avx512 := false; fl_avx2 := false |}.

(** The feature sets of one command: the default ones; those and [zeroize]; all; or every
    set ([cargo hack --feature-powerset]). *)
Inductive featureset := FsDefault | FsZeroize | FsAll | FsPowerset.
(** [cargo build]/[check]/[bench --no-run] only build; [cargo test] also runs, in the
    [dev] profile, whose overflow checks [Cargo.toml:11-12] leaves on. *)
Inductive action := Build | Check | Test | BenchNoRun.
Definition runs (a : action) : bool := match a with Test => true | _ => false end.
Definition overflow_checks (a : action) : bool := match a with BenchNoRun => false | _ => true end.
(** Where the tests run: on the machine of the job, under Intel's emulator of a future CPU
    ([chacha20.yml:96,105]), or under [cross]'s emulator of the target. *)
Inductive runner := Host | Sde | Cross.

Record step := { s_member : member; s_rust : toolchain; s_target : target; s_flags : flags;
  s_features : featureset; s_action : action; s_runner : runner }.
Definition mk m r t f fs a ru : step :=
  {| s_member := m; s_rust := r; s_target := t; s_flags := f; s_features := fs; s_action := a; s_runner := ru |}.

Definition toolchains := [Msrv; Stable].
Definition embedded := [thumbv7em; wasm32].
Definition x86_targets := [i686_linux; x86_64_linux].
(** One job of [chacha20.yml] over the x86 matrix: a check with all features, a run of the
    tests with every set of features. *)
Definition x86_job (f : flags) : list step :=
  flat_map (fun t => flat_map (fun r =>
    [mk MChacha20 r t f FsAll Check Host; mk MChacha20 r t f FsPowerset Test Host]) toolchains) x86_targets.
(** [.github/workflows/chacha20.yml:20-240] *)
Definition chacha20_yml : list step :=
  flat_map (fun r => map (fun t => mk MChacha20 r t no_flags FsPowerset Build Host) embedded) toolchains      (* build: 21-39 *)
  ++ x86_job no_flags                                                                                         (* autodetect: 47-75 *)
  ++ [mk MChacha20 Stable x86_64_linux {| fl_backend := Unset; fl_avx512 := true; fl_avx2 := false |} FsDefault Test Sde;
      mk MChacha20 Stable x86_64_linux {| fl_backend := Unset; fl_avx512 := true; fl_avx2 := false |} FsAll Test Sde]   (* avx512: 78-108 *)
  ++ x86_job {| fl_backend := Avx2; fl_avx512 := false; fl_avx2 := true |}                                    (* avx2: 111-141 *)
  ++ x86_job (force Sse2)                                                                                     (* sse2: 144-174 *)
  ++ x86_job (force Soft)                                                                                     (* soft: 177-207 *)
  ++ flat_map (fun t => map (fun r => mk MChacha20 r t no_flags FsAll Test Cross) toolchains) [aarch64_linux; powerpc_linux].  (* cross: 210-240 *)
(** [.github/workflows/{hc-256,rabbit,rc4,salsa20}.yml]: jobs [build] (20-39) and [test]
    (45-60; the runners of [ubuntu-latest] are x86-64). *)
Definition plain_yml (m : member) : list step :=
  flat_map (fun r => flat_map (fun t => [mk m r t no_flags FsDefault Build Host; mk m r t no_flags FsZeroize Build Host]) embedded) toolchains
  ++ flat_map (fun r => [mk m r x86_64_linux no_flags FsDefault Test Host; mk m r x86_64_linux no_flags FsAll Test Host]) toolchains.
(** [.github/workflows/benches.yml:29]; the features are those of [benches/Cargo.toml:14]
    ([cipher] by default, [rng], [zeroize]); see [benches_build]. *)
Definition ci : list step := chacha20_yml ++ flat_map plain_yml [MHc256; MRabbit; MRc4; MSalsa20].

(** ** The builds of a step *)
Definition bools := [false; true].
(** Sets of [legacy], [rng], [xchacha] with or without the default [cipher]
    ([chacha20/Cargo.toml:36-40]).  Whether [cargo hack] also varies the feature [zeroize],
    which only exists as an optional dependency (chacha20/Cargo.toml:26), depends on its version
    and options: [opt] says that it does; the run with all features is always there. *)
Record fset := { fs_cipher : bool; fs_rng : bool; fs_legacy : bool; fs_xchacha : bool; fs_zeroize : bool }.
Definition all_features := {| fs_cipher := true; fs_rng := true; fs_legacy := true; fs_xchacha := true; fs_zeroize := true |}.
Definition fsets (opt : bool) (f : featureset) : list fset :=
  match f with
  | FsDefault => [{| fs_cipher := true; fs_rng := false; fs_legacy := false; fs_xchacha := false; fs_zeroize := false |}]
  | FsZeroize => [{| fs_cipher := true; fs_rng := false; fs_legacy := false; fs_xchacha := false; fs_zeroize := true |}]
  | FsAll => [all_features]
  | FsPowerset =>
      flat_map (fun c => flat_map (fun r => flat_map (fun l => flat_map (fun x =>
        map (fun z => {| fs_cipher := c; fs_rng := r; fs_legacy := l; fs_xchacha := x; fs_zeroize := z |})
            (if opt then bools else [false])) bools) bools) bools) bools
      ++ [all_features]
  end.
Definition build_of (s : step) (f : fset) : build := {|
  f_cipher := fs_cipher f; f_rng := fs_rng f; f_legacy := fs_legacy f; f_xchacha := fs_xchacha f; f_zeroize := fs_zeroize f;
  b_arch := tg_arch (s_target s); t_neon := tg_neon (s_target s); t_sse2 := tg_sse2 (s_target s); t_avx2 := fl_avx2 (s_flags s);
  t_avx512f := false; t_avx512vl := false; b_backend := fl_backend (s_flags s); b_avx512 := fl_avx512 (s_flags s) |}.
Definition builds (opt : bool) (s : step) : list build := map (build_of s) (fsets opt (s_features s)).
(** [benches/Cargo.toml:14] on the x86-64 machine of [benches.yml:22]. *)
Definition benches_build : build := {|
  f_cipher := true; f_rng := true; f_legacy := false; f_xchacha := false; f_zeroize := true;
  b_arch := X86_64; t_neon := false; t_sse2 := true; t_avx2 := false; t_avx512f := false; t_avx512vl := false;
  b_backend := Unset; b_avx512 := false |}.
