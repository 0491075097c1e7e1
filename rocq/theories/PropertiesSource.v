(** Final theorem C94: the source text itself, parsed and executed, is the model, and so
    computes the ciphers of the specifications. *)
From Coq Require Import String.
From Verif Require Import Word WordLemmas Res Hex PropCommon ChaChaCore ChaChaSoft ChaChaBackend ChaChaProofs ChaChaDispatchProofs XChaCha SpecChaCha PropertiesChaCha
  Salsa SalsaProofs SpecSalsa PropertiesSalsa Rabbit RabbitProofs SpecRabbit PropertiesRabbit
  RustPrograms RustLemmas RustChaCha RustChaCha2 RustSalsa RustRabbit.
From Coq Require Import ZArith Lia ZifyBool ZifyNat ZifyN.
Local Open Scope string_scope.
Local Open Scope N_scope.
Local Open Scope list_scope.
Local Notation length := List.length.

(** A caller of the text: [run f args] calls the function [f] of the text.  It gives the
    value returned and the arguments as the call leaves them. *)
Definition caller := string -> list val -> X (val * list val).
Definition caller_of (g : genv) (p : list fn) (fuel : nat) : caller := run_fn g p fuel.
(** [k] keystream blocks of [size] octets, each written over zeros. *)
Fixpoint text_blocks (run : caller) (size k : nat) (b : val) : X (list N * val) :=
  match k with
  | O => XOk ([], b)
  | S k' =>
      let! (_, args) := run "Backend::gen_ks_block" [b; VArr U8 (repeat 0 size)] in
      match args with
      | [b'; VArr U8 o] => let! (o', b'') := text_blocks run size k' b' in XOk (o ++ o', b'')
      | _ => XStuck
      end
  end.
Definition backend_of (core : val) : val := VStruct "Backend" [("0", core)].
Definition inner (x : val) : X val := match x with VStruct _ [(_, v)] => XOk v | _ => XStuck end.
Definition first_arg (l : list val) : X val := match l with a :: _ => XOk a | [] => XStuck end.
Definition output (x : list N * val) : X (list N) := XOk (fst x).

(** A cipher is made, moved to block [pos], and asked for [k] blocks. *)
Definition text_chacha (run : caller) (t : ity) (key iv : list N) (pos : N) (k : nat) : X (list N) :=
  let! (core, _) := run "ChaChaCore::new_internal" [VArr U8 key; VArr U8 iv] in
  let! (_, args) := run "ChaChaCore::set_block_pos" [core; VInt t pos] in
  let! core := first_arg args in
  let! x := text_blocks run 64 k (backend_of core) in output x.
Definition text_xchacha (run : caller) (key iv : list N) (pos : N) (k : nat) : X (list N) :=
  let! (xcore, _) := run "XChaChaCore::new" [VArr U8 key; VArr U8 iv] in
  let! core := inner xcore in
  let! (_, args) := run "ChaChaCore::set_block_pos" [core; VInt U32 pos] in
  let! core := first_arg args in
  let! x := text_blocks run 64 k (backend_of core) in output x.
Definition text_salsa (run : caller) (key iv : list N) (pos : N) (k : nat) : X (list N) :=
  let! (core, _) := run "SalsaCore::new" [VArr U8 key; VArr U8 iv] in
  let! (_, args) := run "SalsaCore::set_block_pos" [core; VInt U64 pos] in
  let! core := first_arg args in
  let! x := text_blocks run 64 k (backend_of core) in output x.
Definition text_xsalsa (run : caller) (key iv : list N) (pos : N) (k : nat) : X (list N) :=
  let! (xcore, _) := run "XSalsaCore::new" [VArr U8 key; VArr U8 iv] in
  let! core := inner xcore in
  let! (_, args) := run "SalsaCore::set_block_pos" [core; VInt U64 pos] in
  let! core := first_arg args in
  let! x := text_blocks run 64 k (backend_of core) in output x.
Definition text_rabbit_key_only (run : caller) (key : list N) (k : nat) : X (list N) :=
  let! (core, _) := run "RabbitKeyOnlyCore::new" [VArr U8 key] in
  let! state := inner core in
  let! x := text_blocks run 16 k (backend_of state) in output x.
Definition text_rabbit (run : caller) (key iv : list N) (k : nat) : X (list N) :=
  let! (kcore, _) := run "RabbitKeyOnlyCore::new" [VArr U8 key] in
  let! (core, _) := run "RabbitCore::inner_iv_init" [kcore; VArr U8 iv] in
  let! state := inner core in
  let! x := text_blocks run 16 k (backend_of state) in output x.

(** ** The texts are accepted by the parser *)
Theorem C94_parsed :
  parse rabbit_text = Some rabbit_items /\ parse hc256_text = Some hc256_items /\ parse rc4_text = Some rc4_items /\
  (exists a b c d e, parse chacha_rng_text = Some a /\ parse chacha_text = Some b /\ parse chacha_variants_text = Some c /\
     parse chacha_soft_text = Some d /\ parse xchacha_text = Some e /\ chacha_items = a ++ b ++ c ++ d ++ e) /\
  (exists a b c, parse salsa_text = Some a /\ parse salsa_soft_text = Some b /\ parse xsalsa_text = Some c /\ salsa_items = a ++ b ++ c).
Proof. exact parsed. Qed.
Print Assumptions C94_parsed.
Example C94_parsed_satisfiable : (40 < length (chacha_prog ++ salsa_prog ++ rabbit_prog ++ hc256_prog ++ rc4_prog))%nat.
Proof. apply Nat.ltb_lt. vm_compute. reflexivity. Qed.

(** ** ChaCha *)
Lemma xbind_ok {A B} (a : A) (f : A -> X B) : xbind (XOk a) f = f a.
Proof. reflexivity. Qed.
Lemma fuel3 m : (3 <= m)%nat -> exists d, m = S (S (S d)).
Proof. destruct m as [|[|[|d]]]; [lia..|]. exists d. reflexivity. Qed.
Lemma fuel4 m : (4 <= m)%nat -> exists d, m = S (S (S (S d))).
Proof. destruct m as [|[|[|[|d]]]]; [lia..|]. exists d. reflexivity. Qed.

Lemma chacha_text_blocks ck usz v n d k : forall st, wf16 st ->
  text_blocks (caller_of (chacha_i ck usz v n) chacha_prog (S (S (S d)))) 64 k (backend_val st) =
  XOk (blocks_from v (N.to_nat n) k st, backend_val (adv v (N.of_nat k) st)).
Proof.
  induction k as [|k IH]; intros st H; cbn [text_blocks].
  - change (N.of_nat 0) with 0. rewrite adv_0 by assumption. reflexivity.
  - unfold caller_of in *. destruct H as [Hl Hw]. rewrite src_gen_ks_block by (try assumption; apply repeat_length).
    rewrite soft_gen_ks_block_eq by (split; assumption). rewrite xbind_ok. cbv beta iota.
    rewrite IH by (apply adv_wf; split; assumption). rewrite xbind_ok. cbv beta iota.
    rewrite blocks_from_S, adv_add by (split; assumption).
    replace (1 + N.of_nat k) with (N.of_nat (S k)) by lia. reflexivity.
Qed.

(** For both variants, every number of double rounds, every pointer width, with and without
    overflow checks: the keystream of the specification. *)
Theorem C94_chacha ck usz v n fuel key nonce pos k :
  (3 <= fuel)%nat -> octets 32 key -> octets (nonce_len v) nonce -> pos < 2 ^ ctr_bits v ->
  text_chacha (caller_of (chacha_i ck usz v n) chacha_prog fuel) (vcounter v) key nonce pos k =
  XOk (flat_map (fun i => spec_block v (N.to_nat n) key (pos + N.of_nat i) nonce) (seq 0 k)).
Proof.
  intros F [Hk Bk] [Hn Bn] Hp. destruct (fuel3 fuel F) as [d ->]. unfold text_chacha, caller_of.
  rewrite src_new_internal by (try assumption; destruct v; cbn in Hn; rewrite Hn; cbn; auto).
  rewrite new_internal_ok by assumption. unfold of_res. rewrite xbind_ok. cbv beta iota.
  pose proof (mk_state_wf v key nonce 0 Hk Hn Bk Bn) as [Hl Hw].
  rewrite src_set_block_pos by assumption. rewrite xbind_ok. cbv beta iota. cbn [first_arg]. rewrite xbind_ok.
  rewrite set_pos_mk_state by assumption.
  change (backend_of (core_val ?s)) with (backend_val s).
  pose proof (chacha_text_blocks ck usz v n d k (mk_state v key nonce pos) (mk_state_wf v key nonce pos Hk Hn Bk Bn)) as E.
  unfold caller_of in E. rewrite E. rewrite xbind_ok. unfold output. cbn [fst]. rewrite blocks_from_spec by assumption. reflexivity.
Qed.
Print Assumptions C94_chacha.
(** [ChaCha20] of RFC 8439 in particular. *)
Lemma chacha_ietf ck usz n m fuel key nonce pos k : N.to_nat n = m ->
  (3 <= fuel)%nat -> octets 32 key -> octets 12 nonce -> pos < 2 ^ 32 ->
  text_chacha (caller_of (chacha_g ck usz "Ietf" U32 n) chacha_prog fuel) U32 key nonce pos k =
  XOk (flat_map (fun i => sp_ietf_block m key (pos + N.of_nat i) nonce) (seq 0 k)).
Proof. intros <-. exact (C94_chacha ck usz Ietf n fuel key nonce pos k). Qed.
Theorem C94_chacha20_rfc8439 ck usz fuel key nonce pos k :
  (3 <= fuel)%nat -> octets 32 key -> octets 12 nonce -> pos < 2 ^ 32 ->
  text_chacha (caller_of (chacha_g ck usz "Ietf" U32 10) chacha_prog fuel) U32 key nonce pos k =
  XOk (flat_map (fun i => sp_ietf_block 10 key (pos + N.of_nat i) nonce) (seq 0 k)).
Proof. exact (chacha_ietf ck usz 10 10 fuel key nonce pos k eq_refl). Qed.
Print Assumptions C94_chacha20_rfc8439.
(** The text run by the evaluator alone, on the data of RFC 8439 §2.3.2. *)
Example C94_chacha_satisfiable : octets 32 ex_key /\ octets 12 ex_nonce12 /\ 1 < 2 ^ 32 /\
  text_chacha (caller_of (chacha_g true 64 "Ietf" U32 10) chacha_prog 3) U32 ex_key ex_nonce12 1 1 =
  XOk (hex "10f1e7e4d13b5915500fdd1fa32071c4c7d1f4c733c068030422aa9ac3d46c4ed2826446079faa0914c2d705d98b02a2b5129cd1de164eb9cbd083e8a2503c4e").
Proof.
  assert (K : octets 32 ex_key) by (apply octets_check; vm_compute; reflexivity).
  assert (I : octets 12 ex_nonce12) by (apply octets_check; vm_compute; reflexivity).
  split; [exact K|split; [exact I|split; [reflexivity|]]].
  rewrite C94_chacha20_rfc8439 by (try assumption; try reflexivity; lia). vm_compute. reflexivity.
Qed.

Theorem C94_xchacha ck usz n fuel key nonce pos k :
  (3 <= fuel)%nat -> octets 32 key -> octets 24 nonce -> pos < 2 ^ 32 ->
  text_xchacha (caller_of (chacha_i ck usz Ietf n) chacha_prog fuel) key nonce pos k =
  XOk (flat_map (fun i => sp_xchacha_block (N.to_nat n) key (pos + N.of_nat i) nonce) (seq 0 k)).
Proof.
  intros F [Hk Bk] [Hn Bn] Hp. destruct (fuel3 fuel F) as [d ->]. unfold text_xchacha, caller_of.
  rewrite src_xchacha_new by assumption. rewrite xchacha_new_ok by assumption. unfold of_res. rewrite xbind_ok. cbv beta iota.
  unfold xcore_val, inner. rewrite xbind_ok.
  assert (H16 : length (firstn 16 nonce) = 16%nat) by (rewrite firstn_length, Hn; reflexivity).
  assert (Hs : length (hchacha (N.to_nat n) key (firstn 16 nonce)) = 32%nat) by (apply hchacha_length; auto using bytes_firstn).
  assert (Bs : bytes (hchacha (N.to_nat n) key (firstn 16 nonce))) by (apply hchacha_bytes; assumption).
  assert (Hx : length (xnonce nonce) = nonce_len Ietf) by (unfold xnonce; rewrite app_length, skipn_length, Hn; reflexivity).
  assert (Bx : bytes (xnonce nonce)) by (unfold xnonce, bytes; apply Forall_app; split; [repeat constructor|apply bytes_skipn; assumption]).
  pose proof (mk_state_wf Ietf _ _ 0 Hs Hx Bs Bx) as [Hl Hw].
  change (VInt U32 pos) with (VInt (vcounter Ietf) pos). rewrite (src_set_block_pos ck usz Ietf n (S d) _ pos Hl). rewrite xbind_ok. cbv beta iota. cbn [first_arg]. rewrite xbind_ok.
  rewrite set_pos_mk_state by assumption.
  change (backend_of (core_val ?s)) with (backend_val s).
  pose proof (chacha_text_blocks ck usz Ietf n d k _ (mk_state_wf Ietf _ _ pos Hs Hx Bs Bx)) as E.
  unfold caller_of in E. rewrite E. rewrite xbind_ok. unfold output. cbn [fst]. rewrite xchacha_blocks by assumption. reflexivity.
Qed.
Print Assumptions C94_xchacha.
Example C94_xchacha_satisfiable : octets 32 ex_key /\ octets 24 ex_nonce24 /\
  exists o, text_xchacha (caller_of (chacha_g true 32 "Ietf" U32 10) chacha_prog 3) ex_key ex_nonce24 1 2 = XOk o /\ length o = 128%nat.
Proof.
  assert (K : octets 32 ex_key) by (apply octets_check; vm_compute; reflexivity).
  assert (I : octets 24 ex_nonce24) by (apply octets_check; vm_compute; reflexivity).
  split; [exact K|split; [exact I|]]. eexists. split; [apply (C94_xchacha true 32 10 3); try assumption; try reflexivity; lia|vm_compute; reflexivity].
Qed.

(** The functions beside the keystream: positions, remaining blocks, the generator's blocks, HChaCha. *)
Theorem C94_chacha_functions ck usz v n d st : In usz pointer_widths -> length st = 16%nat -> words st ->
  let run := caller_of (chacha_i ck usz v n) chacha_prog (S (S (S d))) in
  run "ChaChaCore::get_block_pos" [core_val st] = XOk (VInt (vcounter v) (get_block_pos v st), [core_val st]) /\
  run "ChaChaCore::remaining_blocks" [core_val st] = XOk (opt_val (remaining_blocks v usz (get_block_pos v st)), [core_val st]) /\
  run "Backend::gen_ks_blocks" [backend_val st; VArr U32 (repeat 0 64)] =
    (let (ks, st') := soft_gen_ks_blocks (N.to_nat n) st in XOk (VUnit, [backend_val st'; VArr U32 ks])) /\
  forall key input, octets 32 key -> octets 16 input ->
  run "hchacha" [VArr U8 key; VArr U8 input] = XOk (VArr U8 (sp_hchacha (N.to_nat n) key input), [VArr U8 key; VArr U8 input]).
Proof.
  intros U Hl Hw run. unfold run, caller_of.
  repeat match goal with |- _ /\ _ => split end.
  - apply src_get_block_pos; assumption.
  - apply src_remaining_blocks; assumption.
  - apply src_gen_ks_blocks; try assumption. apply repeat_length.
  - intros key input [Hk Bk] [Hi Bi]. unfold chacha_i. rewrite src_hchacha by assumption. rewrite hchacha_spec by assumption. reflexivity.
Qed.
Print Assumptions C94_chacha_functions.
Example C94_chacha_functions_satisfiable : In 64 pointer_widths /\ length ex_state = 16%nat /\ words ex_state /\ remaining_blocks Legacy 64 (get_block_pos Legacy ex_state) = Some (2 ^ 64 - 2 ^ 32).
Proof. repeat match goal with |- _ /\ _ => split end; [right; right; left; reflexivity|reflexivity|exact (proj2 (u32x16_check ex_state eq_refl))|vm_compute; reflexivity]. Qed.

(** ** Salsa *)
Lemma salsa_text_blocks ck usz n d k : forall st, wf16 st ->
  text_blocks (caller_of (salsa_g ck usz n) salsa_prog (S (S (S d)))) 64 k (s_backend_val st) =
  match salsa_write ck (N.to_nat n) k st with Ok (o, st') => XOk (o, s_backend_val st') | Panic => XPanic end.
Proof.
  induction k as [|k IH]; intros st H; cbn [text_blocks salsa_write]; [reflexivity|].
  unfold caller_of in *. destruct H as [Hl Hw]. rewrite src_s_gen_ks_block by (try assumption; apply repeat_length).
  destruct (N.eq_dec (s_ctr st) (M64 - 1)) as [E|E]; [destruct ck|].
  - rewrite salsa_gen_panic by (try split; assumption). reflexivity.
  - rewrite salsa_gen_ok by (try split; try assumption; discriminate). rewrite xbind_ok. cbn [bind].
    rewrite IH by (apply s_adv_wf; split; assumption). destruct salsa_write as [[o st']|]; reflexivity.
  - pose proof (s_ctr_lt st (conj Hl Hw)).
    rewrite salsa_gen_ok by (try split; try assumption; intros _; lia). rewrite xbind_ok. cbn [bind].
    rewrite IH by (apply s_adv_wf; split; assumption). destruct salsa_write as [[o st']|]; reflexivity.
Qed.

Theorem C94_salsa ck usz n fuel key nonce pos k : In usz pointer_widths ->
  (3 <= fuel)%nat -> octets 32 key -> octets 8 nonce -> pos < 2 ^ 64 ->
  text_salsa (caller_of (salsa_g ck usz n) salsa_prog fuel) key nonce pos k =
  if ck && (2 ^ 64 <=? pos + N.of_nat k) then XPanic
  else XOk (flat_map (fun i => ss_block (N.to_nat n) key nonce (pos + N.of_nat i)) (seq 0 k)).
Proof.
  intros U F [Hk Bk] [Hn Bn] Hp. destruct (fuel3 fuel F) as [d ->]. unfold text_salsa, caller_of.
  rewrite src_s_new by assumption. rewrite xbind_ok. cbv beta iota. rewrite salsa_new_eq by assumption.
  pose proof (s_state_wf key nonce 0 Hk Hn Bk Bn) as [Hl Hw].
  rewrite src_s_set_pos by assumption. rewrite xbind_ok. cbv beta iota. cbn [first_arg]. rewrite xbind_ok.
  rewrite s_set_pos_state by assumption. change (backend_of (s_core_val ?s)) with (s_backend_val s).
  pose proof (salsa_text_blocks ck usz n d k _ (s_state_wf key nonce pos Hk Hn Bk Bn)) as E. unfold caller_of in E. rewrite E.
  pose proof (s_ctr_state key nonce pos Hk Hn) as C. change (2 ^ 64) with M64 in *. rewrite N.mod_small in C by assumption.
  destruct (N.leb_spec M64 (pos + N.of_nat k)); [destruct ck|rewrite andb_false_r].
  - rewrite salsa_write_panic; [reflexivity|apply s_state_wf; assumption|rewrite C; assumption].
  - cbn [andb]. rewrite salsa_write_ok; [|apply s_state_wf; assumption|discriminate]. rewrite xbind_ok. unfold output. cbn [fst]. rewrite s_blocks_spec by assumption. reflexivity.
  - rewrite salsa_write_ok; [|apply s_state_wf; assumption|intros _; rewrite C; assumption]. rewrite xbind_ok. unfold output. cbn [fst]. rewrite s_blocks_spec by assumption. reflexivity.
Qed.
Print Assumptions C94_salsa.
Example C94_salsa_satisfiable : In 32 pointer_widths /\ octets 32 ex_skey /\ octets 8 ex_snonce /\
  text_salsa (caller_of (salsa_g true 32 10) salsa_prog 3) ex_skey ex_snonce 0 1 =
  XOk (hex "e3be8fdd8beca2e3ea8ef9475b29a6e7003951e1097a5c38d23b7a5fad9f6844b22c97559e2723c7cbbd3fe4fc8d9a0744652a83e72a9c461876af4d7ef1a117") /\
  text_salsa (caller_of (salsa_g true 32 10) salsa_prog 3) ex_skey ex_snonce (2 ^ 64 - 1) 1 = XPanic.
Proof.
  assert (U : In 32 pointer_widths) by (right; left; reflexivity).
  assert (K : octets 32 ex_skey) by (apply octets_check; vm_compute; reflexivity).
  assert (I : octets 8 ex_snonce) by (apply octets_check; vm_compute; reflexivity).
  repeat match goal with |- _ /\ _ => split end; try assumption; rewrite C94_salsa by (try assumption; try reflexivity; lia); vm_compute; reflexivity.
Qed.

Theorem C94_xsalsa ck usz n fuel key nonce pos k : In usz pointer_widths ->
  (3 <= fuel)%nat -> octets 32 key -> octets 24 nonce -> pos < 2 ^ 64 ->
  text_xsalsa (caller_of (salsa_g ck usz n) salsa_prog fuel) key nonce pos k =
  if ck && (2 ^ 64 <=? pos + N.of_nat k) then XPanic
  else XOk (flat_map (fun i => ss_xblock (N.to_nat n) key nonce (pos + N.of_nat i)) (seq 0 k)).
Proof.
  intros U F [Hk Bk] [Hn Bn] Hp.
  assert (H16 : length (firstn 16 nonce) = 16%nat) by (rewrite firstn_length, Hn; reflexivity).
  assert (Es : hsalsa (N.to_nat n) key (firstn 16 nonce) = ss_hsalsa (N.to_nat n) key (firstn 16 nonce))
    by (apply hsalsa_spec; try assumption; apply bytes_firstn; assumption).
  assert (Os : octets 32 (ss_hsalsa (N.to_nat n) key (firstn 16 nonce)))
    by (rewrite <- Es; split; [apply hsalsa_length|apply hsalsa_bytes]; assumption).
  assert (On : octets 8 (skipn 16 nonce)) by (split; [rewrite skipn_length, Hn; reflexivity|apply bytes_skipn; assumption]).
  refine (eq_trans _ (C94_salsa ck usz n fuel _ _ pos k U F Os On Hp)).
  destruct (fuel3 fuel F) as [d ->]. unfold text_xsalsa, text_salsa, caller_of.
  destruct Os as [Hs _], On as [Hm _].
  rewrite src_xsalsa_new by assumption. rewrite (src_s_new ck usz n (S (S d))) by assumption. rewrite !xbind_ok. cbv beta iota.
  unfold s_xcore_val, inner. rewrite xbind_ok. unfold xsalsa_new. rewrite Es. reflexivity.
Qed.
Print Assumptions C94_xsalsa.
Example C94_xsalsa_satisfiable : octets 32 ex_xkey /\ octets 24 ex_xnonce /\
  text_xsalsa (caller_of (salsa_g true 64 10) salsa_prog 3) ex_xkey ex_xnonce 0 1 =
  XOk (hex "4848297feb1fb52fb66d81609bd547fabcbe7026edc8b5e5e449d088bfa69c088f5d8da1d791267c2c195a7f8cae9c4b4050d08ce6d3a151ec265f3a58e47648").
Proof.
  assert (U : In 64 pointer_widths) by (right; right; left; reflexivity).
  assert (K : octets 32 ex_xkey) by (apply octets_check; vm_compute; reflexivity).
  assert (I : octets 24 ex_xnonce) by (apply octets_check; vm_compute; reflexivity).
  repeat match goal with |- _ /\ _ => split end; try assumption. rewrite C94_xsalsa by (try assumption; try reflexivity; lia). vm_compute. reflexivity.
Qed.
Theorem C94_salsa_functions ck usz n d st : In usz pointer_widths -> length st = 16%nat -> words st ->
  let run := caller_of (salsa_g ck usz n) salsa_prog (S (S d)) in
  run "SalsaCore::get_block_pos" [s_core_val st] = XOk (VInt U64 (salsa_get_pos st), [s_core_val st]) /\
  run "SalsaCore::remaining_blocks" [s_core_val st] = XOk (opt_val (salsa_remaining usz st), [s_core_val st]) /\
  forall key input, octets 32 key -> octets 16 input ->
  run "hsalsa" [VArr U8 key; VArr U8 input] = XOk (VArr U8 (ss_hsalsa (N.to_nat n) key input), [VArr U8 key; VArr U8 input]).
Proof.
  intros U Hl Hw run. unfold run, caller_of.
  repeat match goal with |- _ /\ _ => split end.
  - apply src_s_get_pos; assumption.
  - apply src_s_remaining; assumption.
  - intros key input [Hk Bk] [Hi Bi]. rewrite src_hsalsa by assumption. rewrite hsalsa_spec by assumption. reflexivity.
Qed.
Print Assumptions C94_salsa_functions.
Example C94_salsa_functions_satisfiable : length ex_sstate = 16%nat /\ words ex_sstate /\ salsa_remaining 64 ex_sstate = Some (2 ^ 64 - 2 ^ 32).
Proof. repeat match goal with |- _ /\ _ => split end; [reflexivity|exact (proj2 (u32x16_check ex_sstate eq_refl))|vm_compute; reflexivity]. Qed.

(** ** Rabbit *)
Lemma rwf_wf s : rwf s -> wf s.
Proof. unfold rwf, wf. tauto. Qed.
Lemma rabbit_text_blocks ck usz d k : forall s, rwf s ->
  text_blocks (caller_of (rabbit_g ck usz) rabbit_prog (S (S (S (S d))))) 16 k (rabbit_backend s) =
  match rabbit_write ck k s with Ok (o, s') => XOk (o, rabbit_backend s') | Panic => XPanic end.
Proof.
  induction k as [|k IH]; intros s H; cbn [text_blocks rabbit_write]; [reflexivity|].
  unfold caller_of in *. rewrite src_rabbit_gen_ks_block by (try apply rwf_wf; try assumption; apply repeat_length).
  unfold next_block. destruct (next_state_ok ck s H) as [s' [E [W _]]]. rewrite E. cbn [bind]. rewrite xbind_ok. cbv beta iota.
  rewrite IH by assumption. destruct rabbit_write as [[o s'']|]; reflexivity.
Qed.
Theorem C94_rabbit_key_only ck usz fuel key k : (4 <= fuel)%nat -> octets 16 key ->
  text_rabbit_key_only (caller_of (rabbit_g ck usz) rabbit_prog fuel) key k = XOk (flat_map (rb_key_block key) (seq 0 k)).
Proof.
  intros F [Hl Hb]. destruct (fuel4 fuel F) as [d ->]. unfold text_rabbit_key_only, caller_of.
  destruct (setup_key_ok ck key Hl Hb) as [s [E [Hwf Es]]].
  rewrite src_key_only_new by assumption. unfold rabbit_key_only. rewrite E. rewrite xbind_ok. cbv beta iota.
  unfold key_only_val, inner. rewrite xbind_ok. change (backend_of (state_val s)) with (rabbit_backend s).
  pose proof (rabbit_text_blocks ck usz d k s Hwf) as B. unfold caller_of in B. rewrite B.
  destruct (rabbit_write_ok ck k s Hwf) as [s' [E' _]]. rewrite E'. rewrite Es. reflexivity.
Qed.
Print Assumptions C94_rabbit_key_only.
Theorem C94_rabbit ck usz fuel key iv k : (4 <= fuel)%nat -> octets 16 key -> octets 8 iv ->
  text_rabbit (caller_of (rabbit_g ck usz) rabbit_prog fuel) key iv k = XOk (flat_map (rb_key_iv_block key iv) (seq 0 k)).
Proof.
  intros F [Hl Hb] [Hli Hbi]. destruct (fuel4 fuel F) as [d ->]. unfold text_rabbit, caller_of.
  destruct (setup_key_ok ck key Hl Hb) as [s0 [E0 [Hwf0 Es0]]].
  destruct (setup_iv_ok ck iv s0 Hli Hbi Hwf0) as [s [E [Hwf Es]]].
  rewrite src_key_only_new by assumption. unfold rabbit_key_only. rewrite E0. rewrite xbind_ok. cbv beta iota.
  rewrite src_inner_iv_init by (try apply rwf_wf; assumption). rewrite E. rewrite xbind_ok. cbv beta iota.
  unfold rabbit_core_val, inner. rewrite xbind_ok. change (backend_of (state_val s)) with (rabbit_backend s).
  pose proof (rabbit_text_blocks ck usz d k s Hwf) as B. unfold caller_of in B. rewrite B.
  destruct (rabbit_write_ok ck k s Hwf) as [s' [E' _]]. rewrite E'. rewrite Es, Es0. reflexivity.
Qed.
Print Assumptions C94_rabbit.
Example C94_rabbit_satisfiable : octets 16 ex_rkey /\ octets 8 ex_riv /\
  text_rabbit_key_only (caller_of (rabbit_g true 64) rabbit_prog 4) ex_rkey 3 = XOk (hex "9C51E28784C37FE9A127F63EC8F32D3D19FC5485AA53BF96885B40F461CD76F55E4C4D20203BE58A5043DBFB737454E5") /\
  text_rabbit (caller_of (rabbit_g true 64) rabbit_prog 4) (repeat 0 16) ex_riv 3 = XOk (hex "4D1051A123AFB670BF8D8505C8D85A44035BC3ACC667AEAE5B2CF44779F2C896CB5115F034F03D31171CA75F89FCCB9F").
Proof.
  assert (K : octets 16 ex_rkey) by (apply octets_check; vm_compute; reflexivity).
  assert (Z : octets 16 (repeat 0 16)) by (apply octets_check; vm_compute; reflexivity).
  assert (I : octets 8 ex_riv) by (apply octets_check; vm_compute; reflexivity).
  repeat match goal with |- _ /\ _ => split end; try assumption; [rewrite C94_rabbit_key_only by (try assumption; lia)|rewrite C94_rabbit by (try assumption; lia)]; vm_compute; reflexivity.
Qed.
