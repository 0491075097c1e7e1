(** C57: branches and addresses of the code that can panic (leakage model: [LeakageRes.v]).
    Rabbit and the pointer code of the SIMD backends give nothing away; RC4 and HC-256 give
    away everything. *)
From Verif Require Import Word Res WordLemmas PropCommon ChaChaCore ChaChaBackend ChaChaProofs Memory MemoryProofs Rabbit RabbitProofs
  Rc4 Hc256 Hc256Proofs SpecHC256 PropertiesMemory PropertiesHc256 PropertiesHc256Inj
  Leakage LeakageRes LeakageResProofs LeakageSimd LeakageSimdProofs LeakageSim LeakageLeaks.
From Coq Require Import Lia.

(** ** The instrumented functions are the functions of the model *)
Theorem C57_faithful ck usz key iv k rs s hs v n l st m :
  fst (r_rabbit_key_only ck key) = rabbit_key_only ck key
  /\ fst (r_rabbit_new ck key iv) = rabbit_new ck key iv
  /\ fst (r_rabbit_write ck k rs) = rabbit_write ck k rs
  /\ fst (r_new_from_slice key) = new_from_slice key
  /\ fst (r_prga s) = prga s
  /\ fst (r_gen_word ck usz hs) = gen_word ck usz hs
  /\ fst (r_hc_write ck usz k hs) = hc_write ck usz k hs
  /\ fst (sse2_inner_lk v n l st) = sse2_inner_mem v n l st
  /\ fst (avx2_inner_lk v n l st) = avx2_inner_mem v n l st
  /\ fst (avx512_inner_lk v n l st) = avx512_inner_mem v n l st
  /\ fst (neon_inner_lk v n l st) = neon_inner_mem v n l st
  /\ fst (sse2_rng_inner_lk v n st m) = sse2_rng_inner_mem v n st m
  /\ fst (avx2_rng_inner_lk n st m) = avx2_rng_inner_mem n st m
  /\ fst (neon_rng_inner_lk v n st m) = neon_rng_inner_mem v n st m.
Proof.
  split; [apply r_setup_key_value|]. split; [apply r_rabbit_new_value|]. split; [apply r_rabbit_write_value|].
  split; [apply r_new_from_slice_value|]. split; [apply r_prga_value|]. split; [apply r_gen_word_value|].
  split; [apply r_hc_write_value|]. split; [apply sse2_inner_value|]. split; [apply avx2_inner_value|].
  split; [apply avx512_inner_value|]. split; [apply neon_inner_value|]. split; [apply sse2_rng_value|].
  split; [apply avx2_rng_value | apply neon_rng_value].
Qed.
Print Assumptions C57_faithful.

(** ** Rabbit *)
(** Set-up followed by [k] blocks, with and without an IV: the same branches and indices
    whatever the key and IV, in every build. *)
Theorem C57_rabbit ck k key1 key2 iv1 iv2 : octets 16 key1 -> octets 16 key2 -> octets 8 iv1 -> octets 8 iv2 ->
  snd (dol s <- r_rabbit_new ck key1 iv1; r_rabbit_write ck k s) = snd (dol s <- r_rabbit_new ck key2 iv2; r_rabbit_write ck k s)
  /\ snd (dol s <- r_rabbit_key_only ck key1; r_rabbit_write ck k s) = snd (dol s <- r_rabbit_key_only ck key2; r_rabbit_write ck k s).
Proof.
  intros K1 K2 I1 I2.
  assert (A : forall key, octets 16 key -> exists s, setup_key ck key = Ok s /\ rwf s).
  { intros key [Hl Hb]. destruct (setup_key_ok ck key Hl Hb) as [s [E [H _]]]. eauto. }
  assert (B : forall iv s, octets 8 iv -> rwf s -> exists s', setup_iv ck iv s = Ok s' /\ rwf s').
  { intros iv s [Hl Hb] H. destruct (setup_iv_ok ck iv s Hl Hb H) as [s' [E [H' _]]]. eauto. }
  assert (C : forall s, rwf s -> exists o, rabbit_write ck k s = Ok o).
  { intros s H. destruct (rabbit_write_ok ck k s H) as [s' [E _]]. eauto. }
  assert (F1 : forall key iv, octets 16 key -> octets 8 iv -> exists o, fst (dol s <- r_rabbit_new ck key iv; r_rabbit_write ck k s) = Ok o).
  { intros key iv Hk Hi. destruct (A key Hk) as (s & E & H). destruct (B iv s Hi H) as (s' & E' & H'). destruct (C s' H') as (o & Eo).
    exists o. rewrite fst_rbind, r_rabbit_new_value. unfold rabbit_new, rabbit_key_only. rewrite E. cbn [bind]. rewrite E'. cbn [bind].
    rewrite r_rabbit_write_value. exact Eo. }
  assert (F2 : forall key, octets 16 key -> exists o, fst (dol s <- r_rabbit_key_only ck key; r_rabbit_write ck k s) = Ok o).
  { intros key Hk. destruct (A key Hk) as (s & E & H). destruct (C s H) as (o & Eo).
    exists o. rewrite fst_rbind. unfold r_rabbit_key_only. rewrite r_setup_key_value, E. cbn [bind]. rewrite r_rabbit_write_value. exact Eo. }
  split.
  - apply (sim_traces TT); [|apply F1; assumption | apply F1; assumption].
    apply sim_bind with (R := TT); [apply sim_rabbit_new | intros ? ? _; apply sim_rabbit_write].
  - apply (sim_traces TT); [|apply F2; assumption | apply F2; assumption].
    apply sim_bind with (R := TT); [apply sim_setup_key | intros ? ? _; apply sim_rabbit_write].
Qed.
Print Assumptions C57_rabbit.

(** ** SIMD backends *)
(** Two closures that make the same requests. *)
Lemma good_alike par l1 : forall l2, good_requests par l1 -> good_requests par l2 -> map fst l1 = map fst l2 -> Forall2 alike l1 l2.
Proof.
  induction l1 as [|[r m] l1 IH]; intros [|[r' m'] l2] H1 H2 E; try discriminate E; [apply Forall2_nil|].
  injection E as <- E. inversion H1 as [|? ? A1 A2]; subst. inversion H2 as [|? ? B1 B2]; subst. apply Forall2_cons; [|apply IH; assumption].
  split; [reflexivity|]. cbn [fst snd] in *. destruct r; lia.
Qed.
(** The same addresses and branches whatever the state (key, nonce, counter) and whatever
    the buffers held. *)
Theorem C57_simd v n l1 l2 st1 st2 : u32x16 st1 -> u32x16 st2 -> map fst l1 = map fst l2 ->
  (good_requests 4 l1 -> good_requests 4 l2 ->
     snd (sse2_inner_lk v n l1 st1) = snd (sse2_inner_lk v n l2 st2)
     /\ snd (avx2_inner_lk v n l1 st1) = snd (avx2_inner_lk v n l2 st2))
  /\ (good_requests 16 l1 -> good_requests 16 l2 -> snd (avx512_inner_lk v n l1 st1) = snd (avx512_inner_lk v n l2 st2))
  /\ (good_requests 8 l1 -> good_requests 8 l2 -> snd (neon_inner_lk v n l1 st1) = snd (neon_inner_lk v n l2 st2)).
Proof.
  intros H1 H2 E. assert (L : length st1 = length st2) by (destruct H1, H2; congruence).
  split; [|split]; intros G1 G2; pose proof (good_alike _ _ _ G1 G2 E) as F.
  - split.
    + apply (sim_traces TT); [apply sim_sse2_inner; assumption | |]; rewrite sse2_inner_value;
        [destruct (C51_sse2 v n l1 st1 H1 G1) as (b & s & X & _) | destruct (C51_sse2 v n l2 st2 H2 G2) as (b & s & X & _)]; eauto.
    + apply (sim_traces TT); [apply sim_avx2_inner; assumption | |]; rewrite avx2_inner_value;
        [destruct (C51_avx2 v n l1 st1 H1 G1) as (b & s & X & _) | destruct (C51_avx2 v n l2 st2 H2 G2) as (b & s & X & _)]; eauto.
  - apply (sim_traces TT); [apply sim_avx512_inner; assumption | |]; rewrite avx512_inner_value;
      [destruct (C51_avx512 v n l1 st1 H1 G1) as (b & s & X & _) | destruct (C51_avx512 v n l2 st2 H2 G2) as (b & s & X & _)]; eauto.
  - apply (sim_traces TT); [apply sim_neon_inner; assumption | |]; rewrite neon_inner_value;
      [destruct (C51_neon v n l1 st1 H1 G1) as (b & s & X & _) | destruct (C51_neon v n l2 st2 H2 G2) as (b & s & X & _)]; eauto.
Qed.
Print Assumptions C57_simd.
(** The generators' refill. *)
Theorem C57_rng v n st1 st2 m1 m2 : u32x16 st1 -> u32x16 st2 -> length m1 = 256%nat -> length m2 = 256%nat ->
  snd (sse2_rng_inner_lk v n st1 m1) = snd (sse2_rng_inner_lk v n st2 m2)
  /\ snd (avx2_rng_inner_lk n st1 m1) = snd (avx2_rng_inner_lk n st2 m2)
  /\ snd (neon_rng_inner_lk v n st1 m1) = snd (neon_rng_inner_lk v n st2 m2).
Proof.
  intros H1 H2 M1 M2. assert (L : length st1 = length st2) by (destruct H1, H2; congruence).
  assert (M : same_len m1 m2) by (unfold same_len; congruence).
  destruct (C51_rng v n st1 m1 H1 M1) as ((a1 & A1 & _) & (b1 & B1 & _) & (c1 & C1 & _)).
  destruct (C51_rng v n st2 m2 H2 M2) as ((a2 & A2 & _) & (b2 & B2 & _) & (c2 & C2 & _)).
  split; [|split].
  - apply (sim_traces TT); [apply sim_sse2_rng; assumption | |]; rewrite sse2_rng_value; eauto.
  - apply (sim_traces TT); [apply sim_avx2_rng; assumption | |]; rewrite avx2_rng_value; eauto.
  - apply (sim_traces TT); [apply sim_neon_rng; assumption | |]; rewrite neon_rng_value; eauto.
Qed.
Print Assumptions C57_rng.

(** ** RC4: the key schedule's indices determine the key, its length included *)
Theorem C57_rc4_leaks_key key1 key2 : Forall (fun b => b < 256) key1 -> Forall (fun b => b < 256) key2 ->
  (1 <= length key1 <= 256)%nat -> (1 <= length key2 <= 256)%nat ->
  snd (r_new_from_slice key1) = snd (r_new_from_slice key2) -> key1 = key2.
Proof. intros. apply rc4_new_leak_inj; assumption. Qed.
Print Assumptions C57_rc4_leaks_key.

(** ** HC-256 *)
(** One word: the 32-bit table word twelve places back, and ten bits of the exclusive or of
    two others. *)
Theorem C57_hc256_leaks_word ck usz s1 s2 : usize usz -> hvalid s1 -> hvalid s2 -> h_idx s1 = h_idx s2 ->
  snd (r_gen_word ck usz s1) = snd (r_gen_word ck usz s2) ->
  let T s := if h_idx s <? 1024 then h_p s else h_q s in
  let at_ s d := nth (N.to_nat ((h_idx s + 1024 - d) mod 1024)) (T s) 0 in
  at_ s1 12 = at_ s2 12
  /\ N.lxor (at_ s1 3) (at_ s1 1023) mod 1024 = N.lxor (at_ s2 3) (at_ s2 1023) mod 1024.
Proof.
  intros Hu H1 H2 Ei E T at_.
  rewrite (r_gen_word_leak ck usz s1 _ _ Hu (hvalid_rel _ H1)), (r_gen_word_leak ck usz s2 _ _ Hu (hvalid_rel _ H2)) in E.
  assert (B1 := hrel_bounded _ _ _ (hvalid_rel _ H1)). assert (B2 := hrel_bounded _ _ _ (hvalid_rel _ H2)).
  unfold at_, T. rewrite <- Ei in *. unfold step_leak in E. apply app_inv_head in E.
  assert (Hi : h_idx s1 < 2048) by apply H1. rewrite (N.mod_small _ 2048) in E by exact Hi.
  assert (S : forall d, d <= 1024 -> (h_idx s1 + 1024 - d) mod 1024 = hc_sub (h_idx s1 mod 1024) d).
  { intros d Hd. unfold hc_sub. pose proof (N.div_mod' (h_idx s1) 1024) as D. set (q := h_idx s1 / 1024) in *. set (r := h_idx s1 mod 1024) in *.
    replace (h_idx s1 + 1024 - d) with (r + 1024 - d + q * 1024) by lia. apply N.mod_add. discriminate. }
  rewrite !S by lia. set (j := h_idx s1 mod 1024) in *. assert (Hj : j < 1024) by (apply N.mod_lt; discriminate).
  assert (X : forall (b : bool) (k k' : list event), Br b :: k = Br b :: k' -> k = k') by (intros ? ? ? H'; now injection H').
  apply X in E. apply (f_equal (fun l => l ++ [])%list) in E. cbv beta in E.
  destruct (B1 (hc_sub j 12) (hc_sub_lt _ _)), (B2 (hc_sub j 12) (hc_sub_lt _ _)).
  destruct (h_idx s1 <? 1024); cbn [fst snd] in *.
  - apply half_leak_inj in E; assumption.
  - apply half_leak_inj in E; assumption.
Qed.
Print Assumptions C57_hc256_leaks_word.
(** From 3084 consecutive words on (about 12 kB of keystream), key and IV. *)
Theorem C57_hc256_leaks_key ck usz k key1 iv1 key2 iv2 s1 s2 : usize usz -> 3084 <= N.of_nat k ->
  octets 32 key1 -> octets 32 iv1 -> octets 32 key2 -> octets 32 iv2 ->
  hc_new ck usz key1 iv1 = Ok s1 -> hc_new ck usz key2 iv2 = Ok s2 ->
  snd (r_hc_write ck usz k s1) = snd (r_hc_write ck usz k s2) -> key1 = key2 /\ iv1 = iv2.
Proof.
  intros Hu Hk K1 I1 K2 I2 E1 E2 E. pose proof K1 as [Lk Bk]. pose proof I1 as [Li Bi]. pose proof K2 as [Lk' Bk']. pose proof I2 as [Li' Bi'].
  destruct (hc_new_ok key1 iv1 Lk Bk Li Bi ck usz Hu) as (t1 & F1 & R1).
  rewrite F1 in E1. apply (f_equal (fun r => match r with Ok p => p | Panic => t1 end)) in E1. cbv beta iota in E1. subst t1.
  destruct (hc_new_ok key2 iv2 Lk' Bk' Li' Bi' ck usz Hu) as (t2 & F2 & R2).
  rewrite F2 in E2. apply (f_equal (fun r => match r with Ok p => p | Panic => t2 end)) in E2. cbv beta iota in E2. subst t2.
  pose proof (hc_write_leak_same ck usz k s1 s2 _ _ Hu Hk R1 R2 E) as S.
  subst s2. apply (C55_keys ck usz key1 iv1 key2 iv2 0 s1 s1 [] [] s1 Hu K1 I1 K2 I2 F1 F2 eq_refl eq_refl).
Qed.
Print Assumptions C57_hc256_leaks_key.

(** ** Examples *)
(** Hypotheses that can be met, by data that differ. *)
Example C57_satisfiable :
  octets 16 (repeat 0 16) /\ octets 16 (repeat 255 16) /\ octets 8 (repeat 7 8) /\ octets 8 (repeat 200 8)
  /\ u32x16 (mk_state Legacy ex_key ex_nonce8 0xffffffff) /\ u32x16 (mk_state Legacy (repeat 9 32) (repeat 1 8) 0)
  /\ good_requests 4 [(Tail 3, repeat 4 192); (One, repeat 0 64); (Par, repeat 2 256)]
  /\ good_requests 4 [(Tail 3, repeat 5 192); (One, repeat 6 64); (Par, repeat 7 256)]
  /\ octets 32 ex_key /\ usize (2 ^ 64).
Proof.
  do 4 (split; [apply octets_check; vm_compute; reflexivity|]). do 2 (split; [apply u32x16_check; vm_compute; reflexivity|]).
  split; [unfold good_requests; repeat constructor|]. split; [unfold good_requests; repeat constructor|].
  split; [apply octets_check; vm_compute; reflexivity | right; right; reflexivity].
Qed.
(** Traces have something in them: the addresses of an SSE2 block (loads of the state's four
    rows, stores of the block's, then the counter), and the size of a Rabbit run. *)
Example C57_traces :
  snd (sse2_inner_lk Ietf 0 [(One, repeat 0 64)] (repeat 7 16))
  = [Rd 0; Rd 16; Rd 32; Rd 48; Br true; Wr 0; Br true; Wr 16; Br true; Wr 32; Br true; Wr 48; Br false; Wr 12]
  /\ length (snd (dol s <- r_rabbit_new true (repeat 1 16) (repeat 2 8); r_rabbit_write true 3 s)) = 1774%nat.
Proof. vm_compute. split; reflexivity. Qed.
(** The keys [1] and [1; 1] give RC4 the same state: the leakage says more than the state. *)
Example C57_rc4_length :
  new_from_slice [1] = new_from_slice [1; 1] /\ snd (r_new_from_slice [1]) <> snd (r_new_from_slice [1; 1]).
Proof.
  split; [vm_compute; reflexivity|]. intros E.
  assert (X : [1] = [1; 1]).
  { apply C57_rc4_leaks_key; [repeat constructor | repeat constructor | cbn; lia | cbn; lia | exact E]. }
  discriminate X.
Qed.
