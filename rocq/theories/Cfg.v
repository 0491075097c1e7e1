(** Conditional compilation of the [chacha20] crate: which names exist and which are used
    under each combination of Cargo features, target and [--cfg] options.

    A source file is a tree of [#[cfg]] conditions whose leaves declare or use names.
    Simplifications: names are written with their path as strings; visibility is ignored;
    names that no condition can remove ([core::fmt], primitive methods, generic
    parameters) are left out; the body of a function contributes the names it uses and,
    for the [tokens] field, the type it gives it; an [impl Trait for Type] is a name of its
    own, used wherever the trait bound is needed; [#[cfg(test)]] modules and lint
    attributes are left out. *)
From Coq Require Export String List Bool.
Export ListNotations.
Local Open Scope string_scope.

(** Everything a [cfg] predicate of the crate mentions. *)
Inductive atom :=
| FCipher | FRng | FLegacy | FXchacha | FZeroize              (* feature = "..." *)
| AX86 | AX86_64 | AAarch64                                   (* target_arch = "..." *)
| TNeon | TSse2 | TAvx2 | TAvx512f | TAvx512vl                (* target_feature = "..." *)
| BSoft | BSse2 | BAvx2 | BAvx512                             (* chacha20_backend = "..." *)
| CAvx512.                                                    (* chacha20_avx512 *)
Inductive cfg := CTrue | CAtom (a : atom) | CNot (c : cfg) | CAnd (c d : cfg) | COr (c d : cfg).
Coercion CAtom : atom >-> cfg.
Fixpoint eval (e : atom -> bool) (c : cfg) : bool :=
  match c with
  | CTrue => true
  | CAtom a => e a
  | CNot c => negb (eval e c)
  | CAnd c d => eval e c && eval e d
  | COr c d => eval e c || eval e d
  end.

(** [Decl n t]: [n] is declared (with type [t] where that matters); [Use n t]: [n] is
    mentioned, and its type has to be [t]; [Error]: [compile_error!]. *)
Inductive item := Decl (n t : string) | Use (n t : string) | Error (msg : string).
Inductive src := Its (l : list item) | Cat (a b : src) | If (c : cfg) (a b : src).
Definition when (c : cfg) (a : src) : src := If c a (Its []).
Fixpoint cat (l : list src) : src := match l with [] => Its [] | [a] => a | a :: l => Cat a (cat l) end.
(** The items left after conditional compilation. *)
Fixpoint active (e : atom -> bool) (s : src) : list item :=
  match s with
  | Its l => l
  | Cat a b => active e a ++ active e b
  | If c a b => if eval e c then active e a else active e b
  end.

(** In module [m]: [use from::{l}], mention of [l], declaration of [l]. *)
Definition imports (m from : string) (l : list string) : src :=
  Its (flat_map (fun x => [Use (from ++ "::" ++ x) ""; Decl (m ++ "::" ++ x) ""]) l).
Definition uses (m : string) (l : list string) : src := Its (map (fun x => Use (m ++ "::" ++ x) "") l).
Definition decls (m : string) (l : list string) : src := Its (map (fun x => Decl (m ++ "::" ++ x) "") l).
(** [impl t for ty]. *)
Definition impl (t ty : string) : src := Its [Decl ("impl " ++ t ++ " for " ++ ty) ""].
Definition bound (t ty : string) : src := Its [Use ("impl " ++ t ++ " for " ++ ty) ""].
(** [mod m { body }] *)
Definition mod_ (m : string) (body : src) : src := Cat (Its [Decl m ""]) body.

Definition any_x86 : cfg := COr AX86 AX86_64.
Definition cipher_or_rng : cfg := COr FCipher FRng.
Definition neon_target : cfg := CAnd AAarch64 TNeon.

(** ** What is outside the crate *)
(** [chacha20/Cargo.toml:22-34]: optional dependencies and their exports that the crate
    uses; [core::arch]. *)
Definition externs : src := cat [
  decls "cfg_if" ["cfg_if"];
  when FCipher (decls "cipher" ["BlockSizeUser"; "IvSizeUser"; "KeyIvInit"; "KeySizeUser"; "ParBlocks"; "ParBlocksSizeUser";
    "StreamCipherBackend"; "StreamCipherClosure"; "StreamCipherCore"; "StreamCipherCoreWrapper"; "StreamCipherSeekCore";
    "StreamCipherCounter"; "Block"; "array::Array"; "consts"]);
  when FRng (decls "rand_core" ["Infallible"; "SeedableRng"; "TryCryptoRng"; "TryRng"; "BlockRng"; "Generator"]);
  when FZeroize (decls "zeroize" ["Zeroize"; "ZeroizeOnDrop"]);
  when any_x86 (decls "cpufeatures" ["new!"]);
  when AX86 (decls "core::arch" ["x86"]);
  when AX86_64 (decls "core::arch" ["x86_64"]);
  when AAarch64 (decls "core::arch" ["aarch64"])].

(** ** [lib.rs] *)
(** [lib.rs:9-50]; the files of the modules are placed by [crate] below. *)
Definition lib_head : src := cat [
  when FCipher (imports "crate" "crate::chacha" ["ChaCha8"; "ChaCha12"; "ChaCha20"; "Key"; "Nonce"]);         (* :21 *)
  when FCipher (imports "crate" "cipher" ["KeyIvInit"]);                                                      (* :25 *)
  when FLegacy (imports "crate" "crate::legacy" ["ChaCha20Legacy"; "ChaCha20LegacyCore"; "LegacyNonce"]);     (* :27 *)
  when FRng (imports "crate" "crate::rng" ["ChaCha8Rng"; "ChaCha12Rng"; "ChaCha20Rng"; "Seed"; "SerializedRngState"]);  (* :31 *)
  when FXchacha (imports "crate" "crate::xchacha" ["XChaCha8"; "XChaCha12"; "XChaCha20"; "XNonce"; "hchacha"]);         (* :33 *)
  imports "crate" "cfg_if" ["cfg_if"];                                                                        (* :36 *)
  imports "crate" "crate::variants" ["Variant"];                                                              (* :38 *)
  when FCipher (imports "crate" "cipher" ["BlockSizeUser"; "StreamCipherCore"; "StreamCipherSeekCore"; "consts"]);      (* :40 *)
  when FZeroize (imports "crate" "zeroize" ["Zeroize"; "ZeroizeOnDrop"]);                                     (* :42 *)
  when cipher_or_rng (decls "crate" ["CONSTANTS"]);                                                           (* :46 *)
  decls "crate" ["STATE_WORDS"; "Rounds"; "R8"; "R12"; "R20"]].                                               (* :50-80 *)

Definition tok0 := "()".
Definition tok2 := "(avx2, sse2)".
Definition tok3 := "(avx512, avx2, sse2)".
Definition tokens_type (t : string) : src := Its [Decl "crate::Tokens" t].
Definition tokens_value (t : string) : src := Its [Use "crate::Tokens" t].
(** [lib.rs:82-116] *)
Definition lib_tokens : src :=
  If BSoft (tokens_type tok0)                                                          (* :83 *)
  (If any_x86                                                                          (* :85 *)
    (If (CAnd CAvx512 BAvx512)                                                         (* :87 *)
       (Cat (when (CNot (CAnd TAvx512f TAvx512vl)) (Its [Error "avx512"])) (tokens_type tok0))
    (If BAvx2 (Cat (when (CNot TAvx2) (Its [Error "avx2"])) (tokens_type tok0))        (* :92 *)
    (If BSse2 (Cat (when (CNot TSse2) (Its [Error "sse2"])) (tokens_type tok0))        (* :97 *)
       (cat [when CAvx512 (Cat (uses "cpufeatures" ["new!"]) (decls "crate" ["avx512_cpuid"]));   (* :103 *)
             uses "cpufeatures" ["new!"]; decls "crate" ["avx2_cpuid"; "sse2_cpuid"];  (* :105-106 *)
             when CAvx512 (Cat (uses "crate" ["avx512_cpuid"; "avx2_cpuid"; "sse2_cpuid"]) (tokens_type tok3));  (* :107 *)
             when (CNot CAvx512) (Cat (uses "crate" ["avx2_cpuid"; "sse2_cpuid"]) (tokens_type tok2))]))))        (* :109 *)
  (tokens_type tok0)).                                                                 (* :113 *)
(** [lib.rs:138-190]: [new_internal]; the type of [tokens] has to be that of the field. *)
Definition lib_new_internal : src := when cipher_or_rng (cat [
  decls "crate" ["ChaChaCore::new_internal"]; uses "crate" ["STATE_WORDS"; "CONSTANTS"];
  If BSoft (tokens_value tok0)                                                         (* :165 *)
  (If any_x86                                                                          (* :167 *)
    (If BAvx512 (tokens_value tok0)                                                    (* :169 *)
    (If BAvx2 (tokens_value tok0)                                                      (* :171 *)
    (If BSse2 (tokens_value tok0)                                                      (* :173 *)
    (If CAvx512 (Cat (uses "crate" ["avx512_cpuid"; "avx2_cpuid"; "sse2_cpuid"]) (tokens_value tok3))   (* :175 *)
                (Cat (uses "crate" ["avx2_cpuid"; "sse2_cpuid"]) (tokens_value tok2))))))               (* :177 *)
  (tokens_value tok0))]).                                                              (* :181 *)
(** Calls of a backend: [f.call(&mut backends::soft::Backend(self))] and
    [backends::b::inner::<R, _, V>(&mut self.state, f)]. *)
Definition call_soft : src :=
  Cat (uses "crate" ["backends"; "backends::soft"; "backends::soft::Backend"]) (bound "StreamCipherBackend" "soft::Backend").
Definition call_inner (b : string) : src := uses "crate" ["backends"; "backends::" ++ b; "backends::" ++ b ++ "::inner"].
(** [lib.rs:232-299] *)
Definition lib_process : src := when FCipher (cat [
  uses "crate" ["StreamCipherCore"; "Variant"]; uses "cipher" ["StreamCipherClosure"]; impl "StreamCipherCore" "ChaChaCore";
  bound "BlockSizeUser" "ChaChaCore";
  If BSoft call_soft                                                                   (* :244 *)
  (If any_x86                                                                          (* :246 *)
    (If (CAnd CAvx512 BAvx512) (call_inner "avx512")                                   (* :248 *)
    (If BAvx2 (call_inner "avx2")                                                      (* :252 *)
    (If BSse2 (call_inner "sse2")                                                      (* :256 *)
      (cat [when CAvx512 (tokens_value tok3);                                          (* :261 *)
            when (CNot CAvx512) (tokens_value tok2);                                   (* :263 *)
            when CAvx512 (call_inner "avx512");                                        (* :266 *)
            call_inner "avx2"; call_inner "sse2"; call_soft]))))                       (* :274-286 *)
  (If neon_target (call_inner "neon")                                                  (* :289 *)
    call_soft))]).                                                                     (* :294 *)
(** [lib.rs:118-127], [:191-230], [:301-343] *)
Definition lib_rest : src := cat [
  decls "crate" ["ChaChaCore"; "quarter_round"]; uses "crate" ["Rounds"; "Variant"; "STATE_WORDS"]; Its [Use "crate::Tokens" "*"];
  when FCipher (cat [uses "crate" ["StreamCipherSeekCore"]; impl "StreamCipherSeekCore" "ChaChaCore";
                     bound "StreamCipherCore" "ChaChaCore"; bound "StreamCipherCounter" "V::Counter"]);      (* :217 *)
  when FCipher (cat [uses "crate" ["BlockSizeUser"; "consts"]; impl "BlockSizeUser" "ChaChaCore"]);           (* :301 *)
  when FZeroize (cat [uses "crate" ["Zeroize"]; impl "Drop" "ChaChaCore"]);                                   (* :306 *)
  when FZeroize (cat [uses "crate" ["ZeroizeOnDrop"]; impl "ZeroizeOnDrop" "ChaChaCore"; bound "Drop" "ChaChaCore"])].  (* :313 *)

(** ** [variants.rs] *)
Definition variants_rs : src := cat [
  decls "crate::variants" ["Variant"; "Ietf"];
  when (CNot FCipher) (decls "crate::variants" ["Variant::Counter"]);                                   (* :11 *)
  when FCipher (cat [uses "cipher" ["StreamCipherCounter"]; decls "crate::variants" ["Variant::Counter"];
                     impl "StreamCipherCounter" "V::Counter"]);                                         (* :15 *)
  uses "crate::variants" ["Variant"; "Variant::Counter"];                                               (* :20-28 *)
  impl "Variant" "Ietf"; uses "crate::variants" ["Variant"; "Ietf"];                                    (* :37 *)
  when (COr FLegacy FRng) (decls "crate::variants" ["Legacy"]);                                         (* :57 *)
  when (COr FLegacy FRng) (Cat (impl "Sealed" "Legacy") (uses "crate::variants" ["Legacy"]));           (* :61 *)
  when (COr FLegacy FRng) (cat [impl "Variant" "Legacy"; bound "Sealed" "Legacy"; uses "crate::variants" ["Legacy"; "Variant"]])].  (* :64 *)

(** ** [chacha.rs], [legacy.rs], [xchacha.rs] *)
Definition chacha_rs : src := cat [
  imports "crate::chacha" "cipher" ["IvSizeUser"; "KeyIvInit"; "KeySizeUser"; "StreamCipherCoreWrapper"; "array::Array"; "consts"];  (* :1 *)
  imports "crate::chacha" "crate" ["ChaChaCore"; "R8"; "R12"; "R20"; "Rounds"]; imports "crate::chacha" "crate::variants" ["Ietf"];  (* :7 *)
  uses "crate::chacha" ["array::Array"; "consts"]; decls "crate::chacha" ["Key"; "Nonce"; "Block"];      (* :10, :13, :24 *)
  uses "crate::chacha" ["StreamCipherCoreWrapper"; "ChaChaCore"; "R8"; "R12"; "R20"; "Ietf"]; bound "Variant" "Ietf";
  bound "StreamCipherCore" "ChaChaCore"; decls "crate::chacha" ["ChaCha8"; "ChaCha12"; "ChaCha20"];      (* :16-22 *)
  uses "crate::chacha" ["KeySizeUser"; "IvSizeUser"; "KeyIvInit"; "Rounds"; "Key"; "Nonce"]; impl "KeyIvInit" "ChaChaCore<R, Ietf>";
  uses "crate" ["ChaChaCore::new_internal"]].                                                           (* :26-38 *)
Definition legacy_rs : src := cat [
  imports "crate::legacy" "crate" ["ChaChaCore"; "Key"; "R20"]; imports "crate::legacy" "crate::variants" ["Legacy"];      (* :3 *)
  imports "crate::legacy" "cipher" ["IvSizeUser"; "KeyIvInit"; "KeySizeUser"; "StreamCipherCoreWrapper"; "array::Array"; "consts"];  (* :4 *)
  uses "crate::legacy" ["array::Array"; "consts"]; decls "crate::legacy" ["LegacyNonce"; "ChaCha20Legacy"; "ChaCha20LegacyCore"];
  uses "crate::legacy" ["StreamCipherCoreWrapper"; "ChaChaCore"; "R20"; "Legacy"]; bound "Variant" "Legacy";
  bound "StreamCipherCore" "ChaChaCore";                                                                (* :10-17 *)
  uses "crate::legacy" ["KeySizeUser"; "IvSizeUser"; "KeyIvInit"; "Key"; "LegacyNonce"]; uses "crate" ["ChaChaCore::new_internal"];
  impl "KeyIvInit" "ChaChaCore<R20, Legacy>"].                                                          (* :19-32 *)
Definition xchacha_rs : src := cat [
  imports "crate::xchacha" "crate" ["CONSTANTS"; "ChaChaCore"; "Key"; "R8"; "R12"; "R20"; "Rounds"; "STATE_WORDS"; "quarter_round"];
  imports "crate::xchacha" "crate::variants" ["Ietf"];                                                  (* :3 *)
  imports "crate::xchacha" "cipher" ["BlockSizeUser"; "IvSizeUser"; "KeyIvInit"; "KeySizeUser"; "StreamCipherClosure"; "StreamCipherCore";
    "StreamCipherCoreWrapper"; "StreamCipherSeekCore"; "array::Array"; "consts"];                       (* :6 *)
  when FZeroize (imports "crate::xchacha" "zeroize" ["ZeroizeOnDrop"]);                                 (* :13 *)
  uses "crate::xchacha" ["array::Array"; "consts"; "StreamCipherCoreWrapper"; "R8"; "R12"; "R20"; "ChaChaCore"; "Ietf"];
  decls "crate::xchacha" ["XNonce"; "XChaCha20"; "XChaCha12"; "XChaCha8"; "XChaChaCore"]; bound "StreamCipherCore" "XChaChaCore";  (* :17-42 *)
  uses "crate::xchacha" ["KeySizeUser"; "IvSizeUser"; "BlockSizeUser"; "KeyIvInit"; "Key"; "XNonce"; "hchacha"];
  impl "BlockSizeUser" "XChaChaCore"; impl "KeyIvInit" "XChaChaCore"; uses "crate" ["ChaChaCore::new_internal"];  (* :44-67 *)
  uses "crate::xchacha" ["StreamCipherCore"; "StreamCipherClosure"; "StreamCipherSeekCore"]; impl "StreamCipherCore" "XChaChaCore";
  impl "StreamCipherSeekCore" "XChaChaCore"; bound "StreamCipherCore" "ChaChaCore"; bound "BlockSizeUser" "XChaChaCore";  (* :69-93 *)
  when FZeroize (cat [uses "crate::xchacha" ["ZeroizeOnDrop"]; impl "ZeroizeOnDrop" "XChaChaCore"]);    (* :95 *)
  decls "crate::xchacha" ["hchacha"]; uses "crate::xchacha" ["Rounds"; "STATE_WORDS"; "CONSTANTS"; "quarter_round"; "Key"; "array::Array"]].  (* :113 *)

(** ** [rng.rs] *)
Definition call_rng_inner (b : string) : src := uses "crate" ["backends"; "backends::" ++ b; "backends::" ++ b ++ "::rng_inner"].
Definition call_rng_soft : src :=
  uses "crate" ["backends"; "backends::soft"; "backends::soft::Backend"; "backends::soft::Backend::gen_ks_blocks"].
(** [rng.rs:49-92] *)
Definition rng_generate : src :=
  If BSoft call_rng_soft                                                               (* :51 *)
  (If any_x86                                                                          (* :53 *)
    (If (COr BAvx2 BAvx512) (call_rng_inner "avx2")                                    (* :56 *)
    (If BSse2 (call_rng_inner "sse2")                                                  (* :60 *)
      (cat [when CAvx512 (tokens_value tok3);                                          (* :65 *)
            when (CNot CAvx512) (tokens_value tok2);                                   (* :67 *)
            call_rng_inner "avx2"; call_rng_inner "sse2"; call_rng_soft])))            (* :70-80 *)
  (If neon_target (call_rng_inner "neon")                                              (* :83 *)
    call_rng_soft)).                                                                   (* :88 *)
Definition rng_rs : src := cat [
  imports "crate::rng" "rand_core" ["Infallible"; "SeedableRng"; "TryCryptoRng"; "TryRng"; "BlockRng"; "Generator"];   (* :6 *)
  when FZeroize (imports "crate::rng" "zeroize" ["Zeroize"; "ZeroizeOnDrop"]);                          (* :11 *)
  imports "crate::rng" "crate" ["ChaChaCore"; "R8"; "R12"; "R20"; "Rounds"; "backends"];
  imports "crate::rng" "crate::variants" ["Legacy"; "Variant"];                                         (* :14 *)
  imports "crate::rng" "cfg_if" ["cfg_if"];                                                             (* :19 *)
  decls "crate::rng" ["Seed"; "SerializedRngState"; "BLOCK_WORDS"; "BUF_BLOCKS"; "BUFFER_SIZE"];        (* :22-33 *)
  uses "crate::rng" ["SeedableRng"; "ChaChaCore"; "Rounds"; "Variant"; "Seed"]; impl "SeedableRng" "ChaChaCore";
  uses "crate" ["ChaChaCore::new_internal"];                                                            (* :35 *)
  uses "crate::rng" ["Generator"; "BUFFER_SIZE"; "backends"]; impl "Generator" "ChaChaCore"; rng_generate;   (* :44 *)
  when FZeroize (uses "crate::rng" ["Zeroize"]);                                                        (* :96 *)
  uses "crate::rng" ["BlockRng"; "ChaChaCore"; "Legacy"; "R8"; "R12"; "R20"]; bound "Generator" "ChaChaCore"; bound "Variant" "Legacy";
  decls "crate::rng" ["ChaCha8Rng"; "ChaCha12Rng"; "ChaCha20Rng"]; uses "crate" ["ChaChaCore::new_internal"];
  uses "crate::rng" ["SeedableRng"; "TryRng"; "Infallible"; "TryCryptoRng"; "BUF_BLOCKS"; "BLOCK_WORDS"; "SerializedRngState"];  (* :102-336 *)
  when FZeroize (uses "crate::rng" ["ZeroizeOnDrop"])].                                                 (* :170 *)

(** ** The backends *)
(** [backends/soft.rs] *)
Definition soft_rs : src := let m := "crate::backends::soft" in cat [
  imports m "crate" ["ChaChaCore"; "Rounds"; "STATE_WORDS"; "Variant"; "quarter_round"];                (* :5 *)
  when FCipher (imports m "crate::chacha" ["Block"]);                                                   (* :7 *)
  when FCipher (imports m "cipher" ["BlockSizeUser"; "ParBlocksSizeUser"; "StreamCipherBackend"; "consts"]);   (* :9 *)
  when FRng (imports m "crate::rng" ["BLOCK_WORDS"]);                                                   (* :15 *)
  decls m ["Backend"]; uses m ["ChaChaCore"; "Rounds"; "Variant"];                                      (* :18 *)
  when FCipher (cat [uses m ["BlockSizeUser"; "consts"]; impl "BlockSizeUser" "soft::Backend"]);        (* :20 *)
  when FCipher (cat [uses m ["ParBlocksSizeUser"; "consts"]; impl "ParBlocksSizeUser" "soft::Backend"; bound "BlockSizeUser" "soft::Backend"]);  (* :25 *)
  when FCipher (cat [uses m ["StreamCipherBackend"; "Block"; "run_rounds"]; impl "StreamCipherBackend" "soft::Backend";
                     bound "ParBlocksSizeUser" "soft::Backend"]);                                       (* :30 *)
  when FRng (cat [decls m ["Backend::gen_ks_blocks"]; uses m ["run_rounds"; "BLOCK_WORDS"]]);           (* :48 *)
  decls m ["run_rounds"]; uses m ["Rounds"; "STATE_WORDS"; "quarter_round"]].                           (* :66 *)
(** The trait implementations every vector backend has. *)
Definition backend_impls (m b : string) : src := cat [
  when FCipher (cat [uses m ["BlockSizeUser"; "consts"]; impl "BlockSizeUser" (b ++ "::Backend")]);
  when FCipher (cat [uses m ["ParBlocksSizeUser"; "consts"]; impl "ParBlocksSizeUser" (b ++ "::Backend");
                     bound "BlockSizeUser" (b ++ "::Backend")])].
Definition x86_intrinsics (m : string) : src := cat [
  when AX86 (Its [Use "core::arch::x86" ""; Decl (m ++ "::intrinsics") ""]);
  when AX86_64 (Its [Use "core::arch::x86_64" ""; Decl (m ++ "::intrinsics") ""])].
(** [backends/sse2.rs] *)
Definition sse2_rs : src := let m := "crate::backends::sse2" in cat [
  imports m "crate" ["Rounds"; "Variant"];                                                              (* :9 *)
  when FRng (imports m "crate" ["ChaChaCore"]);                                                         (* :11 *)
  when FCipher (Cat (imports m "crate" ["STATE_WORDS"]) (imports m "crate::chacha" ["Block"]));         (* :14 *)
  when FCipher (imports m "cipher" ["BlockSizeUser"; "ParBlocksSizeUser"; "StreamCipherBackend"; "StreamCipherClosure"; "consts"]);  (* :16 *)
  x86_intrinsics m;                                                                                     (* :23 *)
  decls m ["PAR_BLOCKS"];                                                                               (* :28 *)
  when FCipher (cat [decls m ["inner"]; uses m ["STATE_WORDS"; "Rounds"; "StreamCipherClosure"; "consts"; "Variant"; "intrinsics"; "Backend"];
                     bound "StreamCipherBackend" "sse2::Backend"]);                                     (* :32 *)
  decls m ["Backend"]; uses m ["Rounds"; "Variant"; "intrinsics"];                                      (* :58 *)
  backend_impls m "sse2";                                                                               (* :63-71 *)
  when FCipher (cat [uses m ["StreamCipherBackend"; "Block"; "rounds"; "intrinsics"; "PAR_BLOCKS"]; uses "cipher" ["ParBlocks"];
                     impl "StreamCipherBackend" "sse2::Backend"; bound "ParBlocksSizeUser" "sse2::Backend"]);  (* :73 *)
  when FRng (cat [decls m ["rng_inner"]; uses m ["ChaChaCore"; "Rounds"; "Variant"; "intrinsics"; "Backend"; "Backend::gen_ks_blocks"]]);  (* :113 *)
  when FRng (cat [decls m ["Backend::gen_ks_blocks"]; uses m ["PAR_BLOCKS"; "rounds"; "intrinsics"]]);  (* :136 *)
  decls m ["rounds"; "double_quarter_round"; "rows_to_cols"; "cols_to_rows"; "add_xor_rot"];
  uses m ["Rounds"; "Variant"; "intrinsics"; "PAR_BLOCKS"; "double_quarter_round"; "rows_to_cols"; "cols_to_rows"; "add_xor_rot"]].  (* :157-293 *)
(** [backends/avx2.rs] *)
Definition avx2_rs : src := let m := "crate::backends::avx2" in cat [
  imports m "crate" ["Rounds"; "Variant"];                                                              (* :9 *)
  when FRng (imports m "crate" ["ChaChaCore"]);                                                         (* :12 *)
  when FCipher (Cat (imports m "crate" ["STATE_WORDS"]) (imports m "crate::chacha" ["Block"]));         (* :15 *)
  when FCipher (imports m "cipher" ["BlockSizeUser"; "ParBlocks"; "ParBlocksSizeUser"; "StreamCipherBackend"; "StreamCipherClosure"; "consts"]);  (* :18 *)
  x86_intrinsics m;                                                                                     (* :24 *)
  decls m ["PAR_BLOCKS"; "N"]; uses m ["PAR_BLOCKS"];                                                   (* :30-32 *)
  when FCipher (cat [decls m ["inner"]; uses m ["STATE_WORDS"; "Rounds"; "StreamCipherClosure"; "consts"; "Variant"; "intrinsics"; "N"; "Backend"];
                     bound "StreamCipherBackend" "avx2::Backend"]);                                     (* :36 *)
  when FRng (cat [decls m ["rng_inner"]; uses m ["ChaChaCore"; "Rounds"; "Variant"; "intrinsics"; "N"; "Backend"; "Backend::rng_gen_par_ks_blocks"]]);  (* :83 *)
  decls m ["Backend"]; uses m ["Rounds"; "Variant"; "intrinsics"; "N"];                                 (* :114 *)
  backend_impls m "avx2";                                                                               (* :120-128 *)
  when FCipher (cat [uses m ["StreamCipherBackend"; "Block"; "ParBlocks"; "rounds"; "intrinsics"; "PAR_BLOCKS"; "N"];
                     impl "StreamCipherBackend" "avx2::Backend"; bound "ParBlocksSizeUser" "avx2::Backend"]);  (* :130 *)
  when FRng (cat [decls m ["Backend::rng_gen_par_ks_blocks"]; uses m ["rounds"; "intrinsics"; "PAR_BLOCKS"; "N"]]);  (* :182 *)
  decls m ["rounds"; "double_quarter_round"; "rows_to_cols"; "cols_to_rows"; "add_xor_rot"];
  uses m ["Rounds"; "intrinsics"; "N"; "double_quarter_round"; "rows_to_cols"; "cols_to_rows"; "add_xor_rot"]].  (* :209-341 *)
(** [backends/avx512.rs] *)
Definition avx512_rs : src := let m := "crate::backends::avx512" in cat [
  imports m "crate" ["Rounds"; "Variant"];                                                              (* :2 *)
  when FCipher (Cat (imports m "crate" ["STATE_WORDS"]) (imports m "crate::chacha" ["Block"]));         (* :5 *)
  when FCipher (imports m "cipher" ["BlockSizeUser"; "ParBlocks"; "ParBlocksSizeUser"; "StreamCipherBackend"; "StreamCipherClosure"; "consts"]);  (* :8 *)
  x86_intrinsics m;                                                                                     (* :14 *)
  decls m ["MAX_PAR_BLOCKS"; "BLOCKS_PER_VECTOR"; "MAX_N"]; uses m ["MAX_PAR_BLOCKS"; "BLOCKS_PER_VECTOR"];  (* :21-27 *)
  when FCipher (cat [decls m ["inner"]; uses m ["STATE_WORDS"; "Rounds"; "StreamCipherClosure"; "consts"; "Variant"; "intrinsics"; "Backend"];
                     bound "StreamCipherBackend" "avx512::Backend"]);                                   (* :31 *)
  decls m ["Backend"]; uses m ["Rounds"; "Variant"; "intrinsics"];                                      (* :59 *)
  when FCipher (cat [decls m ["Backend::increment_ctr"; "Backend::gen_blocks_fullwidth"; "Backend::gen_blocks_halfwidth"];
                     uses m ["Block"; "BLOCKS_PER_VECTOR"; "rounds"; "rounds_halfwide"; "Backend::increment_ctr"; "intrinsics"]]);  (* :65 *)
  backend_impls m "avx512";                                                                             (* :279-287 *)
  when FCipher (cat [uses m ["StreamCipherBackend"; "ParBlocks"; "Block"; "MAX_N"; "MAX_PAR_BLOCKS"; "Backend::gen_blocks_fullwidth";
                             "Backend::gen_blocks_halfwidth"; "Backend::increment_ctr"; "rounds_quarterwide"; "intrinsics"];
                     uses "cipher" ["Block"];
                     impl "StreamCipherBackend" "avx512::Backend"; bound "ParBlocksSizeUser" "avx512::Backend"]);  (* :289 *)
  decls m ["rounds"; "double_quarter_round"; "rows_to_cols"; "cols_to_rows"; "add_xor_rot"; "rounds_halfwide"; "rounds_quarterwide"];
  uses m ["Rounds"; "intrinsics"; "double_quarter_round"; "rows_to_cols"; "cols_to_rows"; "add_xor_rot"]].  (* :343-626 *)
(** [backends/neon.rs] *)
Definition neon_rs : src := let m := "crate::backends::neon" in cat [
  imports m "crate" ["Rounds"; "STATE_WORDS"; "Variant"];                                               (* :9 *)
  Its [Use "core::arch::aarch64" ""; Decl (m ++ "::intrinsics") ""];                                    (* :10 *)
  when FRng (imports m "crate" ["ChaChaCore"]);                                                         (* :12 *)
  when FCipher (imports m "crate::chacha" ["Block"]);                                                   (* :15 *)
  when FCipher (imports m "cipher" ["BlockSizeUser"; "ParBlocks"; "ParBlocksSizeUser"; "StreamCipherBackend"; "StreamCipherClosure"; "consts"]);  (* :18 *)
  decls m ["Backend"]; uses m ["Rounds"; "Variant"; "intrinsics"];                                      (* :24 *)
  decls m ["add_counter!"; "Backend::new"]; uses m ["STATE_WORDS"; "intrinsics"];                       (* :30-69 *)
  when FCipher (cat [decls m ["inner"]; uses m ["STATE_WORDS"; "Rounds"; "StreamCipherClosure"; "consts"; "Variant"; "intrinsics"; "Backend::new"];
                     bound "StreamCipherBackend" "neon::Backend"]);                                     (* :71 *)
  when FRng (cat [decls m ["rng_inner"]; uses m ["ChaChaCore"; "Rounds"; "Variant"; "Backend::new"; "Backend::write_par_ks_blocks"; "intrinsics"]]);  (* :94 *)
  backend_impls m "neon";                                                                               (* :112-120 *)
  decls m ["add_assign_vec!"];                                                                          (* :122 *)
  when FCipher (cat [uses m ["StreamCipherBackend"; "Block"; "ParBlocks"; "add_counter!"; "add_assign_vec!"; "double_quarter_round"; "intrinsics"];
                     impl "StreamCipherBackend" "neon::Backend"; bound "ParBlocksSizeUser" "neon::Backend"]);  (* :129 *)
  when FRng (cat [decls m ["Backend::write_par_ks_blocks"]; uses m ["add_counter!"; "add_assign_vec!"; "double_quarter_round"; "intrinsics"]]);  (* :254 *)
  decls m ["double_quarter_round"; "rows_to_cols"; "cols_to_rows"; "add_xor_rot"];
  uses m ["double_quarter_round"; "rows_to_cols"; "cols_to_rows"; "add_xor_rot"; "intrinsics"]].        (* :311-366 *)
(** [backends.rs:1-31], with the files of the modules in place. *)
Definition m_soft := mod_ "crate::backends::soft" soft_rs.
Definition m_sse2 := mod_ "crate::backends::sse2" sse2_rs.
Definition m_avx2 := mod_ "crate::backends::avx2" avx2_rs.
Definition m_avx512 := mod_ "crate::backends::avx512" avx512_rs.
Definition m_neon := mod_ "crate::backends::neon" neon_rs.
Definition backends_rs : src := when cipher_or_rng (mod_ "crate::backends"                     (* :1 *)
  (If BSoft m_soft                                                                             (* :6 *)
  (If any_x86                                                                                  (* :8 *)
    (If (CAnd CAvx512 BAvx512) (Cat m_avx512 (when FRng m_avx2))                               (* :10 *)
    (If BAvx2 m_avx2                                                                           (* :15 *)
    (If BSse2 m_sse2                                                                           (* :17 *)
      (cat [m_soft; when CAvx512 m_avx512; m_avx2; m_sse2]))))                                 (* :19 *)
  (If neon_target m_neon                                                                       (* :27 *)
    m_soft)))).                                                                                (* :29 *)

(** The whole crate: [lib.rs:9-19] puts the modules in. *)
Definition crate : src := cat [
  externs;
  mod_ "crate::variants" variants_rs;                                                          (* :9 *)
  backends_rs;                                                                                 (* :11 *)
  when FCipher (mod_ "crate::chacha" chacha_rs);                                               (* :12 *)
  when FLegacy (mod_ "crate::legacy" legacy_rs);                                               (* :14 *)
  when FRng (mod_ "crate::rng" rng_rs);                                                        (* :16 *)
  when FXchacha (mod_ "crate::xchacha" xchacha_rs);                                            (* :18 *)
  lib_head; lib_tokens; lib_new_internal; lib_process; lib_rest].

(** ** Builds *)
Inductive arch := X86_32 | X86_64 | Aarch64 | OtherArch.
Inductive forced := Unset | Soft | Sse2 | Avx2 | Avx512.
(** What the user of the crate chooses: features, target (with its statically enabled
    CPU features), [--cfg chacha20_backend="..."] and [--cfg chacha20_avx512]. *)
Record build := {
  f_cipher : bool; f_rng : bool; f_legacy : bool; f_xchacha : bool; f_zeroize : bool;
  b_arch : arch; t_neon : bool; t_sse2 : bool; t_avx2 : bool; t_avx512f : bool; t_avx512vl : bool;
  b_backend : forced; b_avx512 : bool
}.
(** [chacha20/Cargo.toml:36-40]: [legacy] and [xchacha] enable [cipher]. *)
Definition atoms (b : build) (a : atom) : bool :=
  match a with
  | FCipher => f_cipher b || f_legacy b || f_xchacha b
  | FRng => f_rng b | FLegacy => f_legacy b | FXchacha => f_xchacha b | FZeroize => f_zeroize b
  | AX86 => match b_arch b with X86_32 => true | _ => false end
  | AX86_64 => match b_arch b with X86_64 => true | _ => false end
  | AAarch64 => match b_arch b with Aarch64 => true | _ => false end
  | TNeon => t_neon b | TSse2 => t_sse2 b | TAvx2 => t_avx2 b | TAvx512f => t_avx512f b | TAvx512vl => t_avx512vl b
  | BSoft => match b_backend b with Soft => true | _ => false end
  | BSse2 => match b_backend b with Sse2 => true | _ => false end
  | BAvx2 => match b_backend b with Avx2 => true | _ => false end
  | BAvx512 => match b_backend b with Avx512 => true | _ => false end
  | CAvx512 => b_avx512 b
  end.
Definition items (b : build) : list item := active (atoms b) crate.
