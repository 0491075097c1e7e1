(** The texts of [RustText.v], parsed, as programs of [RustSem.v]. *)
From Coq Require Import String.
From Verif Require Export RustSem RustText.
Local Open Scope string_scope.
Local Open Scope N_scope.
Local Open Scope list_scope.

Definition items_of (s : string) : list item := match parse s with Some l => l | None => [] end.

(** ** Rabbit *)
Definition rabbit_items : list item := Eval vm_compute in items_of rabbit_text.
Definition rabbit_prog : list fn := fns rabbit_items.
Definition rabbit_g (ck : bool) (usz : N) : genv := genv0 ck usz [] [] (structs rabbit_items) (consts usz rabbit_items []).

(** ** HC-256 *)
Definition hc256_items : list item := Eval vm_compute in items_of hc256_text.
Definition hc256_prog : list fn := fns hc256_items.
Definition hc256_g (ck : bool) (usz : N) : genv :=
  {| g_ck := ck; g_usz := usz; g_structs := structs hc256_items; g_consts := consts usz hc256_items []; g_tys := []; g_alias := []; g_defer := true |}.

(** ** RC4 *)
Definition rc4_items : list item := Eval vm_compute in items_of rc4_text.
Definition rc4_prog : list fn := fns rc4_items.
(** [array::from_fn] makes the [state : [u8; 256]] of the struct. *)
Definition rc4_g (ck : bool) (usz : N) : genv :=
  {| g_ck := ck; g_usz := usz; g_structs := structs rc4_items; g_consts := ("array::from_fn", VInt Usz 256) :: consts usz rc4_items [];
     g_tys := []; g_alias := []; g_defer := true |}.

(** ** ChaCha *)
Definition chacha_items : list item :=
  Eval vm_compute in items_of chacha_rng_text ++ items_of chacha_text ++ items_of chacha_variants_text ++ items_of chacha_soft_text ++ items_of xchacha_text.
Definition chacha_prog : list fn := fns chacha_items.
(** The instance: variant [v] with its [Counter] type, number of rounds (a marker type, or
    any number of double rounds as [R::COUNT]); [Array::default()] is the [Array<u8, U32>]
    that [hchacha] returns. *)
Definition chacha_g (ck : bool) (usz : N) (v : string) (counter : ity) (count : N) : genv :=
  genv0 ck usz [("V::Counter", counter); ("Self::Counter", counter)] [("V", v)] (structs chacha_items)
    (("R::COUNT", VInt Usz count) :: ("Array::default", VArr U8 (repeat 0 32)) :: consts usz chacha_items []).

(** ** Salsa *)
Definition salsa_items : list item := Eval vm_compute in items_of salsa_text ++ items_of salsa_soft_text ++ items_of xsalsa_text.
Definition salsa_prog : list fn := fns salsa_items.
(** [R::USIZE] of the type-level number; the array types of the two [default()]. *)
Definition salsa_g (ck : bool) (usz : N) (n : N) : genv :=
  genv0 ck usz [] [] (structs salsa_items)
    (("R::USIZE", VInt Usz n) :: ("Array::default", VArr U8 (repeat 0 32)) :: ("Nonce::default", VArr U8 (repeat 0 8)) :: consts usz salsa_items []).

(** The programs are what the parser makes of the texts; every text is accepted. *)
Lemma parsed :
  parse rabbit_text = Some rabbit_items /\ parse hc256_text = Some hc256_items /\ parse rc4_text = Some rc4_items /\
  (exists a b c d e, parse chacha_rng_text = Some a /\ parse chacha_text = Some b /\ parse chacha_variants_text = Some c /\
     parse chacha_soft_text = Some d /\ parse xchacha_text = Some e /\ chacha_items = a ++ b ++ c ++ d ++ e) /\
  (exists a b c, parse salsa_text = Some a /\ parse salsa_soft_text = Some b /\ parse xsalsa_text = Some c /\ salsa_items = a ++ b ++ c).
Proof.
  split; [|split; [|split; [|split]]]; [vm_compute; reflexivity..| |].
  - exists (items_of chacha_rng_text), (items_of chacha_text), (items_of chacha_variants_text), (items_of chacha_soft_text), (items_of xchacha_text).
    repeat split; vm_compute; reflexivity.
  - exists (items_of salsa_text), (items_of salsa_soft_text), (items_of xsalsa_text). repeat split; vm_compute; reflexivity.
Qed.
