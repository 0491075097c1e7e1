(** Final theorems C01-C12 (ChaCha block level).  Each is followed by an [Example]
    showing its hypotheses hold for concrete, non-trivial data. *)
From Coq Require Import String.
From Verif Require Import Word Res WordLemmas Hex PropCommon SpecChaCha ChaChaCore ChaChaBackend ChaChaSoft ChaChaProofs
  SimdProofs ChaChaSse2Proofs ChaChaAvx2Proofs ChaChaAvx512Proofs ChaChaNeonProofs
  ChaChaDispatch XChaCha ChaChaDispatchProofs.
From Coq Require Import ZArith Lia ZifyBool ZifyNat ZifyN.
Ltac Zify.zify_post_hook ::= Z.div_mod_to_equations.
Local Open Scope string_scope.
Local Open Scope N_scope.
Local Open Scope list_scope.

(** Width of the block counter in bits. *)
Definition ctr_bits (v : variant) : N := match v with Ietf => 32 | Legacy => 64 end.

(** Legacy state about to carry into the high counter word. *)
Definition ex_state := mk_state Legacy ex_key ex_nonce8 0xffffffff.

Lemma set_pos_mk_state v key iv pos : List.length key = 32%nat -> pos < 2 ^ ctr_bits v ->
  set_block_pos v (mk_state v key iv 0) pos = mk_state v key iv pos.
Proof.
  intros Hk Hp. unfold mk_state. pose proof (words_of_bytes_length 8 key Hk) as Hw.
  destruct (words_of_bytes key) as [|k0 [|k1 [|k2 [|k3 [|k4 [|k5 [|k6 [|k7 [|]]]]]]]]]; try discriminate Hw.
  destruct v; unfold set_block_pos, CONSTANTS, ctr_words; cbn [app upd].
  - change (2 ^ ctr_bits Ietf) with M32 in Hp. rewrite N.mod_small by lia. reflexivity.
  - unfold as_u32. change 0xFFFFFFFF with (N.ones 32). rewrite N.land_ones, N.shiftr_div_pow2, <- M32_pow.
    rewrite N.mod_mod by discriminate. reflexivity.
Qed.

(** ** C01 *)
Lemma fresh_blocks c p v n key nonce pos k :
  octets 32 key -> octets (nonce_len v) nonce -> pos < 2 ^ ctr_bits v ->
  exists st, new_internal v key nonce = Ok st /\ exists st',
  core_write c p v n k (set_block_pos v st pos)
  = Ok (flat_map (fun i => spec_block v n key (pos + N.of_nat i) nonce) (seq 0 k), st').
Proof.
  intros [Hk Bk] [Hn Bn] Hp. eexists. split; [apply new_internal_ok; assumption|].
  rewrite set_pos_mk_state by assumption. eexists. rewrite core_write_ok by (apply mk_state_wf; assumption).
  rewrite blocks_from_spec by assumption. reflexivity.
Qed.

Lemma fresh_pos v key nonce : List.length key = 32%nat -> set_block_pos v (mk_state v key nonce 0) 0 = mk_state v key nonce 0.
Proof. intros H. apply set_pos_mk_state; [assumption | destruct v; reflexivity]. Qed.

Theorem C01_chacha_is_rfc8439 c p n key nonce k :
  octets 32 key -> octets 12 nonce ->
  exists st, new_internal Ietf key nonce = Ok st /\ exists st',
  core_write c p Ietf n k st
  = Ok (flat_map (fun i => sp_ietf_block n key (N.of_nat i) nonce) (seq 0 k), st').
Proof.
  intros Hk Hn. destruct (fresh_blocks c p Ietf n key nonce 0 k Hk Hn) as [st [E1 [st' E2]]]; [reflexivity|].
  exists st. split; [assumption|]. exists st'. destruct Hk as [Hk _], Hn as [Hn _].
  rewrite (new_internal_ok Ietf key nonce Hk Hn) in E1. injection E1 as <-.
  rewrite fresh_pos in E2 by assumption. exact E2.
Qed.
Print Assumptions C01_chacha_is_rfc8439.

(** The block at any position [pos], through block-level seeking. *)
Theorem C01_chacha_block_at c p n key nonce pos :
  octets 32 key -> octets 12 nonce -> pos < 2 ^ 32 ->
  exists st st', new_internal Ietf key nonce = Ok st /\
  core_write c p Ietf n 1 (set_block_pos Ietf st pos) = Ok (sp_ietf_block n key pos nonce, st').
Proof.
  intros Hk Hn Hp. destruct (fresh_blocks c p Ietf n key nonce pos 1 Hk Hn Hp) as [st [E1 [st' E2]]].
  exists st, st'. split; [assumption|]. rewrite E2. cbn [seq flat_map]. rewrite app_nil_r, N.add_0_r. reflexivity.
Qed.
Print Assumptions C01_chacha_block_at.
(** RFC 8439 §2.3.2, through the theorem's own objects: block 1. *)
Example C01_satisfiable : octets 32 ex_key /\ octets 12 ex_nonce12 /\ 1 < 2 ^ 32 /\
  sp_ietf_block 10 ex_key 1 ex_nonce12 = hex "10f1e7e4d13b5915500fdd1fa32071c4c7d1f4c733c068030422aa9ac3d46c4ed2826446079faa0914c2d705d98b02a2b5129cd1de164eb9cbd083e8a2503c4e".
Proof. checks. Qed.

(** ** C02 *)
Theorem C02_legacy_is_djb_chacha c p n key nonce pos k :
  octets 32 key -> octets 8 nonce -> pos < 2 ^ 64 ->
  exists st, new_internal Legacy key nonce = Ok st /\ get_block_pos Legacy st = 0 /\ exists st',
  core_write c p Legacy n k (set_block_pos Legacy st pos)
  = Ok (flat_map (fun i => sp_djb_block n key ((pos + N.of_nat i) mod 2 ^ 64) nonce) (seq 0 k), st').
Proof.
  intros Hk Hn Hp. destruct (fresh_blocks c p Legacy n key nonce pos k Hk Hn Hp) as [st [E1 [st' E2]]].
  exists st. split; [assumption|]. split.
  - destruct Hk as [Hk _], Hn as [Hn _].
    rewrite (new_internal_ok Legacy key nonce Hk Hn) in E1. injection E1 as <-.
    unfold mk_state. pose proof (words_of_bytes_length 8 key Hk) as Hw.
    destruct (words_of_bytes key) as [|k0 [|k1 [|k2 [|k3 [|k4 [|k5 [|k6 [|k7 [|]]]]]]]]]; try discriminate Hw.
    reflexivity.
  - exists st'. rewrite E2. do 2 f_equal. apply flat_map_ext. intros i. cbn [spec_block].
    unfold sp_djb_block, sp_djb_state. change (2 ^ 64) with M64. change (2 ^ 32) with M32.
    replace ((pos + N.of_nat i) mod M64 mod M32) with ((pos + N.of_nat i) mod M32) by lia.
    replace ((pos + N.of_nat i) mod M64 / M32 mod M32) with ((pos + N.of_nat i) / M32 mod M32) by lia.
    reflexivity.
Qed.
Print Assumptions C02_legacy_is_djb_chacha.
(** A position whose successor carries into the high counter word. *)
Example C02_satisfiable : octets 32 ex_key /\ octets 8 ex_nonce8 /\ 0xffffffff < 2 ^ 64 /\
  sp_djb_block 10 ex_key 0x100000000 ex_nonce8 <> sp_djb_block 10 ex_key 0 ex_nonce8.
Proof. checks. Qed.

(** ** C03-C06: each SIMD backend, under any legal closure, agrees with the portable one *)
Theorem C03_sse2_equals_soft v n f st : u32x16 st -> forallb (req_ok 4) f = true ->
  exists out st', sse2_inner v n f st = Ok (out, st')
               /\ soft_inner v n (repeat One (reqs_blocks 4 f)) st = Ok (out, st').
Proof.
  intros H Hf. do 2 eexists. split; [apply sse2_inner_ok; assumption|].
  rewrite soft_inner_ok; [|assumption|]; [rewrite reqs_blocks_repeat; cbn [req_blocks]; rewrite Nat.mul_1_r; reflexivity|].
  apply forallb_forall. intros x Hx. apply repeat_spec in Hx. subst. reflexivity.
Qed.
Print Assumptions C03_sse2_equals_soft.
Theorem C04_avx2_equals_soft v n f st : u32x16 st -> forallb (req_ok 4) f = true ->
  exists out st', avx2_inner v n f st = Ok (out, st')
               /\ soft_inner v n (repeat One (reqs_blocks 4 f)) st = Ok (out, st').
Proof.
  intros H Hf. do 2 eexists. split; [apply avx2_inner_ok; assumption|].
  rewrite soft_inner_ok; [|assumption|]; [rewrite reqs_blocks_repeat; cbn [req_blocks]; rewrite Nat.mul_1_r; reflexivity|].
  apply forallb_forall. intros x Hx. apply repeat_spec in Hx. subst. reflexivity.
Qed.
Print Assumptions C04_avx2_equals_soft.
Theorem C05_avx512_equals_soft v n f st : u32x16 st -> forallb (req_ok 16) f = true ->
  exists out st', avx512_inner v n f st = Ok (out, st')
               /\ soft_inner v n (repeat One (reqs_blocks 16 f)) st = Ok (out, st').
Proof.
  intros H Hf. do 2 eexists. split; [apply avx512_inner_ok; assumption|].
  rewrite soft_inner_ok; [|assumption|]; [rewrite reqs_blocks_repeat; cbn [req_blocks]; rewrite Nat.mul_1_r; reflexivity|].
  apply forallb_forall. intros x Hx. apply repeat_spec in Hx. subst. reflexivity.
Qed.
Print Assumptions C05_avx512_equals_soft.
Theorem C06_neon_equals_soft v n f st : u32x16 st -> forallb (req_ok 8) f = true ->
  exists out st', neon_inner v n f st = Ok (out, st')
               /\ soft_inner v n (repeat One (reqs_blocks 8 f)) st = Ok (out, st').
Proof.
  intros H Hf. do 2 eexists. split; [apply neon_inner_ok; assumption|].
  rewrite soft_inner_ok; [|assumption|]; [rewrite reqs_blocks_repeat; cbn [req_blocks]; rewrite Nat.mul_1_r; reflexivity|].
  apply forallb_forall. intros x Hx. apply repeat_spec in Hx. subst. reflexivity.
Qed.
Print Assumptions C06_neon_equals_soft.
(** The portable backend itself emits the iterated block function, and a request is
    never empty work: [reqs_blocks] counts 64-byte blocks. *)
Theorem C03_soft_is_iterated_block v n k st : u32x16 st ->
  exists out st', soft_inner v n (repeat One k) st = Ok (out, st')
    /\ List.length out = (64 * k)%nat
    /\ forall i, (i < k)%nat ->
         slice out (64 * i) 64 = fst (soft_gen_ks_block v n (iter_n i (fun s => snd (soft_gen_ks_block v n s)) st)).
Proof.
  intros H. do 2 eexists. rewrite soft_inner_ok; [|assumption|].
  2:{ apply forallb_forall. intros x Hx. apply repeat_spec in Hx. subst. reflexivity. }
  split; [reflexivity|]. rewrite reqs_blocks_repeat. cbn [req_blocks]. rewrite Nat.mul_1_r.
  split; [apply blocks_from_length; assumption|].
  intros i Hi. assert (E : forall j, iter_n j (fun s => snd (soft_gen_ks_block v n s)) st = adv v (N.of_nat j) st).
  { induction j as [|j IH]; [symmetry; apply adv_0; assumption|]. rewrite iter_n_S_out, IH.
    rewrite soft_gen_ks_block_eq by (apply adv_wf; assumption). cbn [snd].
    rewrite adv_add by assumption. f_equal. lia. }
  rewrite E, soft_gen_ks_block_eq by (apply adv_wf; assumption). cbn [fst].
  replace k with (i + (1 + (k - i - 1)))%nat by lia. rewrite !blocks_from_add by (try apply adv_wf; assumption).
  unfold slice. rewrite skipn_app_len by (apply blocks_from_length; assumption).
  rewrite firstn_app_len by (apply blocks_from_length, adv_wf; assumption).
  apply blocks_from_1, adv_wf; assumption.
Qed.
Print Assumptions C03_soft_is_iterated_block.
(** A closure mixing single blocks, parallel chunks and every kind of tail. *)
Example C03_satisfiable : u32x16 ex_state /\ forallb (req_ok 4) [One; Par; Tail 3; Par; One; Tail 0] = true
  /\ reqs_blocks 4 [One; Par; Tail 3; Par; One; Tail 0] = 13%nat
  /\ forallb (req_ok 8) [One; Par; Tail 7; Par] = true
  /\ forallb (req_ok 16) [Tail 1; Tail 2; Tail 3; Tail 5; Tail 9; Tail 15; Par; One] = true.
Proof. checks. Qed.

(** ** C07 *)
Theorem C07_backend_unobservable c1 p1 c2 p2 v n k st : u32x16 st ->
  core_write c1 p1 v n k st = core_write c2 p2 v n k st
  /\ exists out st', core_write c1 p1 v n k st = Ok (out, st') /\ u32x16 st' /\ List.length out = (64 * k)%nat.
Proof.
  intros H. rewrite !core_write_ok by assumption. split; [reflexivity|]. do 2 eexists. split; [reflexivity|].
  split; [apply (adv_wf v _ st H) | apply blocks_from_length; assumption].
Qed.
Print Assumptions C07_backend_unobservable.
(** For any closure, not only the ones [cipher] issues: if it legally asks for [k]
    blocks on every backend width, the choice of backend is unobservable. *)
Theorem C07_any_closure c1 p1 c2 p2 v n f k st : u32x16 st ->
  (forall P, In P [1; 4; 8; 16]%nat -> forallb (req_ok P) (f P) = true /\ reqs_blocks P (f P) = k) ->
  process_with_backend c1 p1 v n f st = process_with_backend c2 p2 v n f st
  /\ process_with_backend c1 p1 v n f st <> Panic.
Proof.
  intros H Hf. rewrite !(process_ok _ _ v n f k st H) by assumption. split; [reflexivity | discriminate].
Qed.
Print Assumptions C07_any_closure.
Example C07_satisfiable : u32x16 ex_state /\
  core_write {| c_target := X86; c_backend := NoCfg; c_avx512 := true |}
             {| has_avx512 := true; has_avx2 := true; has_sse2 := true |} Legacy 10 3 ex_state
  = core_write {| c_target := OtherTarget; c_backend := NoCfg; c_avx512 := false |}
             {| has_avx512 := false; has_avx2 := false; has_sse2 := false |} Legacy 10 3 ex_state.
Proof. checks. Qed.

(** ** C08 *)
Lemma get_pos_ctr v st : wf16 st ->
  get_block_pos v st = match v with Ietf => get st 12 | Legacy => ctr64 st end.
Proof. intros [_ Hw]. destruct v; [reflexivity|]. apply lor_ctr. assumption. Qed.
Theorem C08_only_the_counter_moves c p v n k st : u32x16 st ->
  exists out st', core_write c p v n k st = Ok (out, st')
  /\ firstn 12 st' = firstn 12 st
  /\ skipn (12 + N.to_nat (ctr_bits v / 32)) st' = skipn (12 + N.to_nat (ctr_bits v / 32)) st
  /\ get_block_pos v st' = (get_block_pos v st + N.of_nat k) mod 2 ^ ctr_bits v.
Proof.
  intros H. rewrite core_write_ok by assumption. do 2 eexists. split; [reflexivity|].
  rewrite !get_pos_ctr by (try apply adv_wf; assumption).
  destruct H as [Hl Hw]. destr16 st Hl.
  destruct v; cbn [ctr_bits]; unfold adv, ctr64, get; cbn [upd nth firstn]; (split; [reflexivity|]);
    (split; [reflexivity|]).
  - reflexivity.
  - change (2 ^ 64) with M64. apply split32.
Qed.
Print Assumptions C08_only_the_counter_moves.
Example C08_satisfiable : u32x16 ex_state /\
  get_block_pos Legacy (snd (soft_gen_ks_block Legacy 10 ex_state)) = 2 ^ 32.
Proof. checks. Qed.

(** ** C09 *)
Theorem C09_block_seek v st pos : u32x16 st -> pos < 2 ^ ctr_bits v ->
  get_block_pos v (set_block_pos v st pos) = pos
  /\ u32x16 (set_block_pos v st pos)
  /\ firstn 12 (set_block_pos v st pos) = firstn 12 st
  /\ skipn (12 + N.to_nat (ctr_bits v / 32)) (set_block_pos v st pos) = skipn (12 + N.to_nat (ctr_bits v / 32)) st.
Proof.
  intros [Hl Hw] Hp. destr16 st Hl. destruct v; cbn [ctr_bits] in *.
  - change (2 ^ 32) with M32 in Hp. unfold set_block_pos. cbn [upd]. split; [reflexivity|].
    split; [|split; reflexivity]. split; [reflexivity|]. change (2 ^ 32) with M32 in *. inv_forall. repeat constructor; assumption.
  - change (2 ^ 64) with M64 in Hp. unfold set_block_pos, as_u32. cbn [upd].
    change 0xFFFFFFFF with (N.ones 32). rewrite N.land_ones, N.shiftr_div_pow2, <- M32_pow.
    rewrite N.mod_mod by discriminate. change (2 ^ 32) with M32 in Hw.
    assert (Hw' : Forall (fun w => w < M32) [x; x0; x1; x2; x3; x4; x5; x6; x7; x8; x9; x10; pos mod M32; pos / M32 mod M32; x13; x14]).
    { inv_forall. repeat constructor; try assumption; apply N.mod_lt; discriminate. }
    split; [|split; [split; [reflexivity|exact Hw']|split; reflexivity]].
    unfold get_block_pos. rewrite lor_ctr by exact Hw'. unfold ctr64, get. cbn [nth]. lia.
Qed.
Print Assumptions C09_block_seek.
(** After seeking, the block produced is block [pos] of the same key and nonce's
    keystream, whatever was generated before the seek. *)
Theorem C09_seek_then_block c p v n key nonce k pos :
  octets 32 key -> octets (match v with Ietf => 12 | Legacy => 8 end) nonce -> pos < 2 ^ ctr_bits v ->
  exists st out st1 st2, new_internal v key nonce = Ok st
  /\ core_write c p v n k st = Ok (out, st1)
  /\ core_write c p v n 1 (set_block_pos v st1 pos)
     = Ok (match v with Ietf => sp_ietf_block n key pos nonce | Legacy => sp_djb_block n key pos nonce end, st2).
Proof.
  intros [Hk Bk] [Hn Bn] Hp. do 4 eexists. assert (Hn' : List.length nonce = nonce_len v) by (destruct v; assumption).
  split; [apply new_internal_ok; assumption|].
  split; [apply core_write_ok, mk_state_wf; assumption|].
  rewrite adv_mk_state by assumption.
  assert (E : forall c0, set_block_pos v (mk_state v key nonce c0) pos = mk_state v key nonce pos).
  { intros c0. rewrite <- (set_pos_mk_state v key nonce pos) by assumption. unfold mk_state.
    pose proof (words_of_bytes_length 8 key Hk) as Hw.
    destruct (words_of_bytes key) as [|k0 [|k1 [|k2 [|k3 [|k4 [|k5 [|k6 [|k7 [|]]]]]]]]]; try discriminate Hw.
    destruct v; reflexivity. }
  rewrite E, core_write_ok by (apply mk_state_wf; assumption).
  rewrite blocks_from_spec by assumption. cbn [seq flat_map]. rewrite app_nil_r.
  change (N.of_nat 0) with 0. rewrite N.add_0_r. destruct v; reflexivity.
Qed.
Print Assumptions C09_seek_then_block.
Example C09_satisfiable : u32x16 ex_state /\ 0x123456789abcdef0 < 2 ^ ctr_bits Legacy /\
  get_block_pos Legacy (set_block_pos Legacy ex_state 0x123456789abcdef0) = 0x123456789abcdef0.
Proof. checks. Qed.

(** ** C10 *)
Theorem C10_remaining_blocks v usz pos : In usz [16; 32; 64] -> pos < 2 ^ ctr_bits v ->
  (remaining_blocks v usz pos =
    let left := 2 ^ ctr_bits v - 1 - pos in if left <? 2 ^ usz then Some left else None)
  /\ forall len, len < 2 ^ usz ->      (* a request of [len] bytes: [usize] *)
     (match remaining_blocks v usz pos with None => True | Some r => (len + 63) / 64 <= r end) ->
     pos + (len + 63) / 64 < 2 ^ ctr_bits v.
Proof.
  intros Hu Hp. unfold remaining_blocks. split.
  - destruct v; reflexivity.
  - intros len Hlen H. cbn in Hu.
    destruct v; cbn [counter_max ctr_bits] in *;
      [change (2 ^ 32) with M32 in Hp |- * | change (2 ^ 64) with M64 in Hp |- *];
      destruct Hu as [<-|[<-|[<-|[]]]];
      change (2 ^ 16) with 65536 in *; change (2 ^ 32) with M32 in *; change (2 ^ 64) with M64 in *;
      match type of H with context [?a <? ?b] => destruct (N.ltb_spec a b) end; lia.
Qed.
Print Assumptions C10_remaining_blocks.
(** Both answers occur: on a 64-bit target the answer is exact, on a 32-bit target the
    legacy variant answers [None]. *)
Example C10_satisfiable : remaining_blocks Ietf 64 5 = Some 4294967290 /\ remaining_blocks Legacy 32 5 = None
  /\ remaining_blocks Legacy 32 (2 ^ 64 - 3) = Some 2 /\ remaining_blocks Ietf 32 0 = Some (2 ^ 32 - 1).
Proof. checks. Qed.

(** ** C11 *)
Theorem C11_xchacha c p n key nonce k :
  octets 32 key -> octets 24 nonce ->
  exists st, xchacha_new n key nonce = Ok st /\ get_block_pos Ietf st = 0 /\
  forall pos, pos < 2 ^ 32 -> exists st',
  core_write c p Ietf n k (set_block_pos Ietf st pos)
  = Ok (flat_map (fun i => sp_ietf_block n (sp_hchacha n key (firstn 16 nonce)) (pos + N.of_nat i)
                              ([0; 0; 0; 0] ++ skipn 16 nonce)) (seq 0 k), st').
Proof.
  intros [Hk Bk] [Hn Bn]. eexists. split; [apply xchacha_new_ok; assumption|].
  assert (H16 : List.length (firstn 16 nonce) = 16%nat) by (rewrite firstn_length, Hn; reflexivity).
  assert (Hs : List.length (hchacha n key (firstn 16 nonce)) = 32%nat)
    by (apply hchacha_length; auto using bytes_firstn).
  assert (Hx : List.length (xnonce nonce) = nonce_len Ietf)
    by (unfold xnonce; rewrite app_length, skipn_length, Hn; reflexivity).
  split.
  - unfold mk_state. pose proof (words_of_bytes_length 8 _ Hs) as Hw.
    destruct (words_of_bytes (hchacha n key (firstn 16 nonce))) as [|k0 [|k1 [|k2 [|k3 [|k4 [|k5 [|k6 [|k7 [|]]]]]]]]];
      try discriminate Hw. reflexivity.
  - intros pos Hp. eexists. rewrite set_pos_mk_state by assumption.
    rewrite core_write_ok.
    + rewrite xchacha_blocks by assumption. reflexivity.
    + apply mk_state_wf; [assumption.. | apply hchacha_bytes; assumption |].
      unfold xnonce, bytes. apply Forall_app. split; [repeat constructor | apply bytes_skipn; assumption].
Qed.
Print Assumptions C11_xchacha.
(** draft-irtf-cfrg-xchacha-03 A.3.2.1 (first block, counter 0). *)
Example C11_satisfiable : octets 32 ex_key /\ octets 24 ex_nonce24 /\
  List.length (sp_xchacha_block 10 ex_key 0 ex_nonce24) = 64%nat.
Proof. checks. Qed.

(** ** C12 *)
Theorem C12_hchacha n key input : octets 32 key -> octets 16 input ->
  hchacha n key input = sp_hchacha n key input.
Proof. intros [? ?] [? ?]. apply hchacha_spec; assumption. Qed.
Print Assumptions C12_hchacha.

Lemma add_sub_word a b : a < M32 -> b < M32 -> (sp_plus a b + 2 ^ 32 - b) mod 2 ^ 32 = a.
Proof. unfold sp_plus. change (2 ^ 32) with M32. intros. lia. Qed.
(** "Known input words subtracted from the ChaCha block". *)
Theorem C12_hchacha_from_block n key input : octets 32 key -> octets 16 input ->
  let s := sp_constants ++ sp_words 8 key ++ sp_words 4 input in
  let minus i := (nth i (sp_core n s) 0 + 2 ^ 32 - nth i s 0) mod 2 ^ 32 in
  hchacha n key input = sp_serialize (map minus [0; 1; 2; 3; 12; 13; 14; 15]%nat).
Proof.
  intros [Hk Bk] [Hi Bi] s minus. rewrite C12_hchacha by (split; assumption). unfold sp_hchacha.
  fold s. cbv zeta. f_equal.
  assert (Hwf : wf16 s).
  { unfold s. rewrite <- (words_of_bytes_spec 8 key Hk), <- (words_of_bytes_spec 4 input Hi), <- CONSTANTS_spec.
    apply hstate_wf; assumption. }
  assert (Hr : wf16 (sp_rounds n s)) by (rewrite <- iter_double_round_spec by assumption; apply iter_double_round_wf; assumption).
  unfold minus, sp_core. clearbody s. remember (sp_rounds n s) as r eqn:Er. clear Er minus.
  destruct Hwf as [Hl Hw], Hr as [Hl' Hw']. destr16 s Hl. unfold words in *. 
  do 16 (destruct r as [|? r]; [discriminate Hl'|]). destruct r; [|discriminate Hl']. inv_forall. unfold W32 in *.
  cbn [combine map fst snd nth firstn skipn app].
  rewrite !add_sub_word by assumption. reflexivity.
Qed.
Print Assumptions C12_hchacha_from_block.
(** draft-irtf-cfrg-xchacha-03 §2.2.1; also the repository's own test. *)
Example C12_satisfiable : octets 32 ex_key /\ octets 16 ex_input16 /\
  hchacha 10 ex_key ex_input16 = hex "82413b4227b27bfed30e42508a877d73a0f9e4d58a74a853c12ec41326d3ecdc".
Proof. checks. Qed.
