(** Executable forms of the specifications, proved equal to them, so that the test vectors
    of the repository can be evaluated ([RepoTests], C69).  Division and remainder by powers
    of two become shifts and masks; RC4's permutation becomes a binary trie; keystream
    ranges are taken from whole blocks.  Nothing here models code of the repository. *)
From Verif Require Import Word WordLemmas Res PropCommon SpecStream SpecChaCha SpecSalsa SpecRabbit SpecHC256 SpecRC4
  ChaChaCore ChaChaProofs SalsaProofs RabbitProofs Ciphers CiphersProofs Hc256Proofs Hc256Fast
  SpecRng ChaChaDispatch BlockRng ChaChaRng RngProofs PropertiesRng PropertiesRngExact.
From Coq Require Import ZArith Lia ZifyBool ZifyNat ZifyN FMapPositive.
Ltac Zify.zify_post_hook ::= Z.div_mod_to_equations.

(** ** Word operations *)
Definition fmask (n x : N) : N := N.land x (N.ones n).
Lemma fmask_ok n x : fmask n x = x mod 2 ^ n.
Proof. apply N.land_ones. Qed.
Definition fshr (x n : N) : N := N.shiftr x n.
Lemma fshr_ok x n : fshr x n = x / 2 ^ n.
Proof. apply N.shiftr_div_pow2. Qed.
Definition fshl (x n : N) : N := N.shiftl x n.
Lemma fshl_ok x n : fshl x n = x * 2 ^ n.
Proof. apply N.shiftl_mul_pow2. Qed.
Definition fplus (x y : N) : N := N.land (x + y) 0xffffffff.
Lemma fplus_ok x y : fplus x y = (x + y) mod 2 ^ 32.
Proof. apply (fmask_ok 32). Qed.
Definition froll (x n : N) : N := N.land (fshl x n) 0xffffffff + fshr x (32 - n).
Lemma froll_ok x n : froll x n = (x * 2 ^ n) mod 2 ^ 32 + x / 2 ^ (32 - n).
Proof. unfold froll. rewrite fshr_ok, fshl_ok. f_equal. apply (fmask_ok 32). Qed.

(** ** ChaCha *)
Lemma fplus_sp x y : fplus x y = sp_plus x y. Proof. apply fplus_ok. Qed.
Lemma froll_sp x n : froll x n = sp_roll x n. Proof. apply froll_ok. Qed.
Definition f_QR (a b c d : N) : N * N * N * N :=
  let a := fplus a b in let d := froll (N.lxor d a) 16 in
  let c := fplus c d in let b := froll (N.lxor b c) 12 in
  let a := fplus a b in let d := froll (N.lxor d a) 8 in
  let c := fplus c d in let b := froll (N.lxor b c) 7 in
  (a, b, c, d).
Lemma f_QR_ok a b c d : f_QR a b c d = sp_QR a b c d.
Proof. with_strategy transparent [sp_QR] unfold sp_QR. unfold f_QR. cbv zeta. rewrite !froll_sp, !fplus_sp. reflexivity. Qed.
Definition f_double_round (s : list N) : list N :=
  match s with
  | [x0; x1; x2; x3; x4; x5; x6; x7; x8; x9; x10; x11; x12; x13; x14; x15] =>
      let '(x0, x4, x8, x12) := f_QR x0 x4 x8 x12 in
      let '(x1, x5, x9, x13) := f_QR x1 x5 x9 x13 in
      let '(x2, x6, x10, x14) := f_QR x2 x6 x10 x14 in
      let '(x3, x7, x11, x15) := f_QR x3 x7 x11 x15 in
      let '(x0, x5, x10, x15) := f_QR x0 x5 x10 x15 in
      let '(x1, x6, x11, x12) := f_QR x1 x6 x11 x12 in
      let '(x2, x7, x8, x13) := f_QR x2 x7 x8 x13 in
      let '(x3, x4, x9, x14) := f_QR x3 x4 x9 x14 in
      [x0; x1; x2; x3; x4; x5; x6; x7; x8; x9; x10; x11; x12; x13; x14; x15]
  | _ => []
  end.
Lemma f_double_round_ok s : f_double_round s = sp_double_round s.
Proof.
  do 16 (destruct s as [|? s]; [reflexivity|]). destruct s as [|? s]; [|reflexivity].
  cbn [f_double_round sp_double_round].
  repeat (rewrite f_QR_ok; match goal with |- context [sp_QR ?a ?b ?c ?d] => destruct (sp_QR a b c d) as [[[? ?] ?] ?] end).
  reflexivity.
Qed.
Fixpoint f_iter {A} (n : nat) (f : A -> A) (x : A) : A := match n with O => x | S n' => f_iter n' f (f x) end.
Lemma f_iter_ok {A} (f g : A -> A) n : (forall x, f x = g x) -> forall x, f_iter n f x = Nat.iter n g x.
Proof.
  intros E. assert (C : forall n x, Nat.iter n g (g x) = g (Nat.iter n g x)).
  { clear. induction n as [|n IH]; intros x; [reflexivity|]. change (Nat.iter (S n) g (g x)) with (g (Nat.iter n g (g x))). rewrite IH. reflexivity. }
  induction n as [|n IH]; intros x; [reflexivity|]. cbn [f_iter]. rewrite IH, E, C. reflexivity.
Qed.
Definition f_core (dr : nat) (s : list N) : list N :=
  map (fun p => fplus (fst p) (snd p)) (combine (f_iter dr f_double_round s) s).
Lemma f_core_ok dr s : f_core dr s = sp_core dr s.
Proof.
  unfold f_core, sp_core, sp_rounds. rewrite (f_iter_ok _ _ _ f_double_round_ok). apply map_ext. intros p. apply fplus_sp.
Qed.
Definition f_byte (x i : N) : N := N.land (fshr x (8 * i)) 255.
Lemma f_byte_ok x i : f_byte x i = (x / 2 ^ (8 * i)) mod 2 ^ 8.
Proof. unfold f_byte. rewrite fshr_ok. apply (fmask_ok 8). Qed.
Definition f_serialize (s : list N) : list N := flat_map (fun w => [f_byte w 0; f_byte w 1; f_byte w 2; f_byte w 3]) s.
Lemma f_serialize_ok s : f_serialize s = sp_serialize s.
Proof. unfold f_serialize, sp_serialize. apply flat_map_ext. intros w. rewrite !f_byte_ok. reflexivity. Qed.
Definition f_hchacha (dr : nat) (key input : list N) : list N :=
  let s := f_iter dr f_double_round (sp_constants ++ sp_words 8 key ++ sp_words 4 input) in
  f_serialize (firstn 4 s ++ skipn 12 s).
Lemma f_hchacha_ok dr key input : f_hchacha dr key input = sp_hchacha dr key input.
Proof. unfold f_hchacha, sp_hchacha, sp_rounds. rewrite (f_iter_ok _ _ _ f_double_round_ok). apply f_serialize_ok. Qed.

(** ** Salsa *)
Lemma fplus_ss x y : fplus x y = ss_plus x y. Proof. apply fplus_ok. Qed.
Lemma froll_ss x n : froll x n = ss_rot x n. Proof. apply froll_ok. Qed.
Definition f_quarterround (y0 y1 y2 y3 : N) : N * N * N * N :=
  let z1 := N.lxor y1 (froll (fplus y0 y3) 7) in
  let z2 := N.lxor y2 (froll (fplus z1 y0) 9) in
  let z3 := N.lxor y3 (froll (fplus z2 z1) 13) in
  let z0 := N.lxor y0 (froll (fplus z3 z2) 18) in
  (z0, z1, z2, z3).
Lemma f_quarterround_ok a b c d : f_quarterround a b c d = ss_quarterround a b c d.
Proof.
  with_strategy transparent [ss_quarterround] unfold ss_quarterround. unfold f_quarterround. cbv zeta.
  rewrite !froll_ss, !fplus_ss. reflexivity.
Qed.
Definition f_doubleround (x : list N) : list N :=
  match x with
  | [x0; x1; x2; x3; x4; x5; x6; x7; x8; x9; x10; x11; x12; x13; x14; x15] =>
      let '(y0, y4, y8, y12) := f_quarterround x0 x4 x8 x12 in
      let '(y5, y9, y13, y1) := f_quarterround x5 x9 x13 x1 in
      let '(y10, y14, y2, y6) := f_quarterround x10 x14 x2 x6 in
      let '(y15, y3, y7, y11) := f_quarterround x15 x3 x7 x11 in
      let '(z0, z1, z2, z3) := f_quarterround y0 y1 y2 y3 in
      let '(z5, z6, z7, z4) := f_quarterround y5 y6 y7 y4 in
      let '(z10, z11, z8, z9) := f_quarterround y10 y11 y8 y9 in
      let '(z15, z12, z13, z14) := f_quarterround y15 y12 y13 y14 in
      [z0; z1; z2; z3; z4; z5; z6; z7; z8; z9; z10; z11; z12; z13; z14; z15]
  | _ => []
  end.
Lemma f_doubleround_ok s : f_doubleround s = ss_doubleround s.
Proof.
  with_strategy transparent [ss_doubleround] unfold ss_doubleround.
  do 16 (destruct s as [|? s]; [reflexivity|]). destruct s as [|? s]; [|reflexivity].
  cbn [f_doubleround ss_columnround].
  do 4 (rewrite f_quarterround_ok; match goal with |- context [ss_quarterround ?a ?b ?c ?d] => destruct (ss_quarterround a b c d) as [[[? ?] ?] ?] end).
  cbn [ss_rowround].
  do 4 (rewrite f_quarterround_ok; match goal with |- context [ss_quarterround ?a ?b ?c ?d] => destruct (ss_quarterround a b c d) as [[[? ?] ?] ?] end).
  reflexivity.
Qed.
Definition f_score (dr : nat) (x : list N) : list N :=
  map (fun p => fplus (fst p) (snd p)) (combine x (f_iter dr f_doubleround x)).
Lemma f_score_ok dr s : f_score dr s = ss_core dr s.
Proof.
  unfold f_score, ss_core, ss_rounds. rewrite (f_iter_ok _ _ _ f_doubleround_ok). apply map_ext. intros p. apply fplus_ok.
Qed.
Lemma f_serialize_s s : f_serialize s = ss_bytes s.
Proof.
  unfold f_serialize, ss_bytes. apply flat_map_ext. intros w. rewrite !f_byte_ok.
  change (8 * 0) with 0. rewrite N.pow_0_r, N.div_1_r. reflexivity.
Qed.
Definition f_hsalsa (dr : nat) (k n : list N) : list N :=
  let z := f_iter dr f_doubleround (ss_words 16 (ss_expand_input k n)) in
  f_serialize (map (fun i => nth i z 0) [0; 5; 10; 15; 6; 7; 8; 9]%nat).
Lemma f_hsalsa_ok dr k n : f_hsalsa dr k n = ss_hsalsa dr k n.
Proof. unfold f_hsalsa, ss_hsalsa, ss_rounds. rewrite (f_iter_ok _ _ _ f_doubleround_ok). apply f_serialize_s. Qed.
Definition f_sblock (dr : nat) (k nonce : list N) (i : N) : list N :=
  f_serialize (f_score dr (ss_words 16 (ss_expand_input k (nonce ++ ss_counter i)))).
Lemma f_sblock_ok dr k nonce i : f_sblock dr k nonce i = ss_block dr k nonce i.
Proof. unfold f_sblock, ss_block, ss_hash. rewrite f_serialize_s, f_score_ok. reflexivity. Qed.

(** ** Rabbit *)
Definition f_octets (n : nat) (x : N) : list N := map (fun i => f_byte x (N.of_nat i)) (seq 0 n).
Lemma f_octets_ok n x : f_octets n x = rb_octets n x.
Proof. unfold f_octets, rb_octets. apply map_ext. intros i. apply f_byte_ok. Qed.
Definition f_low (t : N) : N := N.land t 0xffffffff.
Lemma f_low_ok t : f_low t = t mod WORD_SIZE. Proof. apply (fmask_ok 32). Qed.
Definition f_high (t : N) : N := fshr t 32.
Lemma f_high_ok t : f_high t = t / WORD_SIZE. Proof. apply fshr_ok. Qed.
Lemma froll_rb x n : froll x n = rb_rot x n. Proof. apply froll_ok. Qed.
Definition f_g (u v : N) : N :=
  let s := f_low (u + v) in let sq := s * s in N.lxor (f_low sq) (f_high sq).
Lemma f_g_ok u v : f_g u v = rb_g u v.
Proof. unfold f_g, rb_g. cbv zeta. rewrite f_high_ok, !f_low_ok. reflexivity. Qed.
Definition f_next (s : rb_state) : rb_state :=
  let x := rb_nth (rb_x s) in let c := rb_nth (rb_c s) in let A := rb_nth rb_A in
  let t0 := c 0%nat + A 0%nat + rb_b s in let t1 := c 1%nat + A 1%nat + f_high t0 in
  let t2 := c 2%nat + A 2%nat + f_high t1 in let t3 := c 3%nat + A 3%nat + f_high t2 in
  let t4 := c 4%nat + A 4%nat + f_high t3 in let t5 := c 5%nat + A 5%nat + f_high t4 in
  let t6 := c 6%nat + A 6%nat + f_high t5 in let t7 := c 7%nat + A 7%nat + f_high t6 in
  let c0 := f_low t0 in let c1 := f_low t1 in let c2 := f_low t2 in let c3 := f_low t3 in
  let c4 := f_low t4 in let c5 := f_low t5 in let c6 := f_low t6 in let c7 := f_low t7 in
  let g0 := f_g (x 0%nat) c0 in let g1 := f_g (x 1%nat) c1 in let g2 := f_g (x 2%nat) c2 in let g3 := f_g (x 3%nat) c3 in
  let g4 := f_g (x 4%nat) c4 in let g5 := f_g (x 5%nat) c5 in let g6 := f_g (x 6%nat) c6 in let g7 := f_g (x 7%nat) c7 in
  {| rb_x := [f_low (g0 + froll g7 16 + froll g6 16); f_low (g1 + froll g0 8 + g7);
              f_low (g2 + froll g1 16 + froll g0 16); f_low (g3 + froll g2 8 + g1);
              f_low (g4 + froll g3 16 + froll g2 16); f_low (g5 + froll g4 8 + g3);
              f_low (g6 + froll g5 16 + froll g4 16); f_low (g7 + froll g6 8 + g5)];
     rb_c := [c0; c1; c2; c3; c4; c5; c6; c7]; rb_b := f_high t7 |}.
Lemma f_next_ok s : f_next s = rb_next s.
Proof.
  unfold f_next, rb_next. cbv zeta.
  assert (E : rb_tab (rb_counter (rb_c s) (rb_b s)) =
    let c := rb_nth (rb_c s) in let A := rb_nth rb_A in
    let t0 := c 0%nat + A 0%nat + rb_b s in let t1 := c 1%nat + A 1%nat + f_high t0 in
    let t2 := c 2%nat + A 2%nat + f_high t1 in let t3 := c 3%nat + A 3%nat + f_high t2 in
    let t4 := c 4%nat + A 4%nat + f_high t3 in let t5 := c 5%nat + A 5%nat + f_high t4 in
    let t6 := c 6%nat + A 6%nat + f_high t5 in let t7 := c 7%nat + A 7%nat + f_high t6 in
    [f_low t0; f_low t1; f_low t2; f_low t3; f_low t4; f_low t5; f_low t6; f_low t7]).
  { cbv zeta. unfold rb_tab, rb_counter. cbn [seq map rb_carry]. rewrite !f_low_ok, !f_high_ok. reflexivity. }
  assert (Eb : rb_carry (rb_c s) (rb_b s) 8 =
    let c := rb_nth (rb_c s) in let A := rb_nth rb_A in
    let t0 := c 0%nat + A 0%nat + rb_b s in let t1 := c 1%nat + A 1%nat + f_high t0 in
    let t2 := c 2%nat + A 2%nat + f_high t1 in let t3 := c 3%nat + A 3%nat + f_high t2 in
    let t4 := c 4%nat + A 4%nat + f_high t3 in let t5 := c 5%nat + A 5%nat + f_high t4 in
    let t6 := c 6%nat + A 6%nat + f_high t5 in let t7 := c 7%nat + A 7%nat + f_high t6 in f_high t7).
  { cbv zeta. cbn [rb_carry]. rewrite !f_high_ok. reflexivity. }
  rewrite E, Eb. cbv zeta. clear E Eb.
  set (t7 := _ + f_high (_ + f_high (_ + f_high (_ + f_high (_ + f_high (_ + f_high (_ + f_high _))))))).
  set (t6 := _ + f_high (_ + f_high (_ + f_high (_ + f_high (_ + f_high (_ + f_high _)))))) in *.
  set (t5 := _ + f_high (_ + f_high (_ + f_high (_ + f_high (_ + f_high _))))) in *.
  set (t4 := _ + f_high (_ + f_high (_ + f_high (_ + f_high _)))) in *.
  set (t3 := _ + f_high (_ + f_high (_ + f_high _))) in *.
  set (t2 := _ + f_high (_ + f_high _)) in *.
  set (t1 := _ + f_high _) in *.
  set (t0 := rb_nth (rb_c s) 0 + _ + _) in *.
  clearbody t0 t1 t2 t3 t4 t5 t6 t7.
  unfold rb_tab. cbn [seq map].
  change (rb_nth [f_low t0; f_low t1; f_low t2; f_low t3; f_low t4; f_low t5; f_low t6; f_low t7] 0) with (f_low t0).
  change (rb_nth [f_low t0; f_low t1; f_low t2; f_low t3; f_low t4; f_low t5; f_low t6; f_low t7] 1) with (f_low t1).
  change (rb_nth [f_low t0; f_low t1; f_low t2; f_low t3; f_low t4; f_low t5; f_low t6; f_low t7] 2) with (f_low t2).
  change (rb_nth [f_low t0; f_low t1; f_low t2; f_low t3; f_low t4; f_low t5; f_low t6; f_low t7] 3) with (f_low t3).
  change (rb_nth [f_low t0; f_low t1; f_low t2; f_low t3; f_low t4; f_low t5; f_low t6; f_low t7] 4) with (f_low t4).
  change (rb_nth [f_low t0; f_low t1; f_low t2; f_low t3; f_low t4; f_low t5; f_low t6; f_low t7] 5) with (f_low t5).
  change (rb_nth [f_low t0; f_low t1; f_low t2; f_low t3; f_low t4; f_low t5; f_low t6; f_low t7] 6) with (f_low t6).
  change (rb_nth [f_low t0; f_low t1; f_low t2; f_low t3; f_low t4; f_low t5; f_low t6; f_low t7] 7) with (f_low t7).
  rewrite !f_g_ok.
  set (g0 := rb_g (rb_nth (rb_x s) 0) _). set (g1 := rb_g (rb_nth (rb_x s) 1) _). set (g2 := rb_g (rb_nth (rb_x s) 2) _). set (g3 := rb_g (rb_nth (rb_x s) 3) _).
  set (g4 := rb_g (rb_nth (rb_x s) 4) _). set (g5 := rb_g (rb_nth (rb_x s) 5) _). set (g6 := rb_g (rb_nth (rb_x s) 6) _). set (g7 := rb_g (rb_nth (rb_x s) 7) _).
  clearbody g0 g1 g2 g3 g4 g5 g6 g7.
  assert (EX : map (rb_next_x [g0; g1; g2; g3; g4; g5; g6; g7]) [0; 1; 2; 3; 4; 5; 6; 7]%nat =
    [f_low (g0 + froll g7 16 + froll g6 16); f_low (g1 + froll g0 8 + g7);
     f_low (g2 + froll g1 16 + froll g0 16); f_low (g3 + froll g2 8 + g1);
     f_low (g4 + froll g3 16 + froll g2 16); f_low (g5 + froll g4 8 + g3);
     f_low (g6 + froll g5 16 + froll g4 16); f_low (g7 + froll g6 8 + g5)]).
  { rewrite !f_low_ok, !froll_rb. reflexivity. }
  cbn [map] in EX. rewrite EX. reflexivity.
Qed.
Definition key_start (K : N) : rb_state :=
  let k i := rb_bits K (16 * N.of_nat (i mod 8)%nat + 15) (16 * N.of_nat (i mod 8)%nat) in
  {| rb_x := rb_tab (fun j => if Nat.even j then rb_cat (k (j + 1)%nat) (k j) else rb_cat (k (j + 5)%nat) (k (j + 4)%nat));
     rb_c := rb_tab (fun j => if Nat.even j then rb_cat (k (j + 4)%nat) (k (j + 5)%nat) else rb_cat (k j) (k (j + 1)%nat));
     rb_b := 0 |}.
Definition key_end (s : rb_state) : rb_state :=
  {| rb_x := rb_x s; rb_c := rb_tab (fun j => N.lxor (rb_nth (rb_c s) j) (rb_nth (rb_x s) (j + 4)%nat)); rb_b := rb_b s |}.
Definition f_key_setup (K : N) : rb_state := key_end (f_iter 4 f_next (key_start K)).
Lemma f_key_setup_ok K : f_key_setup K = rb_key_setup K.
Proof.
  unfold f_key_setup. rewrite (f_iter_ok _ _ _ f_next_ok).
  cbv beta zeta delta [rb_key_setup key_end key_start]. reflexivity.
Qed.
Definition f_iv_setup (IV : N) (s : rb_state) : rb_state :=
  f_iter 4 f_next {| rb_x := rb_x s; rb_c := rb_tab (fun j => N.lxor (rb_nth (rb_c s) j) (rb_iv_word IV j)); rb_b := rb_b s |}.
Lemma f_iv_setup_ok IV s : f_iv_setup IV s = rb_iv_setup IV s.
Proof. unfold f_iv_setup, rb_iv_setup. apply (f_iter_ok _ _ _ f_next_ok). Qed.
(** Blocks 0 .. k-1 from a set-up state, concatenated. *)
Fixpoint f_rblocks (k : nat) (s : rb_state) : list N :=
  match k with O => [] | S k' => let s := f_next s in f_octets 16 (rb_extract s) ++ f_rblocks k' s end.
Lemma f_rblocks_ok s k : forall i, f_rblocks k (Nat.iter i rb_next s) = flat_map (fun i => rb_octets 16 (rb_block s i)) (seq i k).
Proof.
  induction k as [|k IH]; intros i; [reflexivity|]. cbn [f_rblocks seq flat_map]. rewrite f_next_ok, f_octets_ok.
  change (rb_next (Nat.iter i rb_next s)) with (Nat.iter (S i) rb_next s). rewrite IH.
  apply (f_equal2 (@app N)); [|reflexivity]. unfold rb_block. reflexivity.
Qed.

(** ** HC-256 *)
Definition f_hsub (a b : N) : N := N.land (a + 1024 - b) 1023.
Lemma f_hsub_ok a b : f_hsub a b = hc_sub a b. Proof. apply (fmask_ok 10). Qed.
Lemma fplus_hc a b : fplus a b = hc_add a b. Proof. apply fplus_ok. Qed.
Definition f_rotr (x n : N) : N := fshr x n + fshl (fmask n x) (32 - n).
Lemma f_rotr_ok x n : f_rotr x n = hc_rotr x n.
Proof. unfold f_rotr. rewrite fshl_ok, fshr_ok, fmask_ok. reflexivity. Qed.
Definition f_f1 (x : N) : N := N.lxor (N.lxor (f_rotr x 7) (f_rotr x 18)) (fshr x 3).
Definition f_f2 (x : N) : N := N.lxor (N.lxor (f_rotr x 17) (f_rotr x 19)) (fshr x 10).
Lemma f_f1_ok x : f_f1 x = hc_f1 x. Proof. unfold f_f1. rewrite !f_rotr_ok, fshr_ok. reflexivity. Qed.
Lemma f_f2_ok x : f_f2 x = hc_f2 x. Proof. unfold f_f2. rewrite !f_rotr_ok, fshr_ok. reflexivity. Qed.
Definition f_hg (T : N -> N) (x y : N) : N :=
  fplus (N.lxor (f_rotr x 10) (f_rotr y 23)) (T (N.land (N.lxor x y) 1023)).
Lemma f_hg_ok T x y : f_hg T x y = hc_g T x y.
Proof.
  unfold f_hg, hc_g. rewrite !f_rotr_ok, fplus_hc. do 2 f_equal. apply (fmask_ok 10).
Qed.
Definition f_hh (T : N -> N) (x : N) : N :=
  fplus (fplus (fplus (T (N.land x 255)) (T (256 + N.land (fshr x 8) 255))) (T (512 + N.land (fshr x 16) 255))) (T (768 + N.land (fshr x 24) 255)).
Lemma f_hh_ok T x : f_hh T x = hc_h T x.
Proof.
  unfold f_hh, hc_h, hc_byte. rewrite !fplus_hc, !fshr_ok.
  change 255 with (N.ones 8). rewrite !N.land_ones. change (256 ^ 0) with 1. rewrite N.div_1_r. reflexivity.
Qed.
Definition f_hstep (i : N) (t : trie * trie) : N * (trie * trie) :=
  let (mp, mq) := t in
  let j := N.land i 1023 in
  if N.testbit i 10 then
    let v := fplus (fplus (tget mq j) (tget mq (f_hsub j 10))) (f_hg (tget mp) (tget mq (f_hsub j 3)) (tget mq (f_hsub j 1023))) in
    let mq := tset mq j v in
    (N.lxor (f_hh (tget mp) (tget mq (f_hsub j 12))) (tget mq j), (mp, mq))
  else
    let v := fplus (fplus (tget mp j) (tget mp (f_hsub j 10))) (f_hg (tget mq) (tget mp (f_hsub j 3)) (tget mp (f_hsub j 1023))) in
    let mp := tset mp j v in
    (N.lxor (f_hh (tget mq) (tget mp (f_hsub j 12))) (tget mp j), (mp, mq)).
Lemma f_hstep_ok i t : f_hstep i t = fast_step i t.
Proof.
  unfold f_hstep, fast_step. destruct t as [mp mq].
  assert (Ej : N.land i 1023 = i mod 1024) by apply (fmask_ok 10). rewrite Ej.
  assert (Eb : N.testbit i 10 = negb (i mod 2048 <? 1024)).
  { rewrite N.testbit_eqb. change (2 ^ 10) with 1024. lia. }
  rewrite Eb. destruct (i mod 2048 <? 1024); cbn [negb]; cbv zeta; rewrite !f_hsub_ok, !fplus_hc, f_hg_ok, f_hh_ok; reflexivity.
Qed.
Fixpoint f_hrun (k : nat) (i : N) (t : trie * trie) : list N * (trie * trie) :=
  match k with
  | O => ([], t)
  | S k' => let (o, t1) := f_hstep i t in let (os, t2) := f_hrun k' (i + 1) t1 in (o :: os, t2)
  end.
Lemma f_hrun_ok k : forall i t, f_hrun k i t = fast_run k i t.
Proof.
  induction k as [|k IH]; intros i t; [reflexivity|]. cbn [f_hrun fast_run]. rewrite f_hstep_ok.
  destruct (fast_step i t) as [o t1]. rewrite IH. reflexivity.
Qed.
Definition f_slide (i : N) (w : list N) : list N :=
  let W k := nth k w 0 in
  tl w ++ [fplus (fplus (fplus (fplus (f_f2 (W 14%nat)) (W 9%nat)) (f_f1 (W 1%nat))) (W 0%nat)) (i + 16)].
Fixpoint f_W (n : nat) (i : N) (w : list N) : list N :=
  match n with O => [] | S n' => nth 0 w 0 :: f_W n' (i + 1) (f_slide i w) end.
Lemma f_W_ok n : forall i w, f_W n i w = fast_W n i w.
Proof.
  induction n as [|n IH]; intros i w; [reflexivity|]. cbn [f_W fast_W]. f_equal. rewrite IH. f_equal.
  unfold f_slide, slide. rewrite !fplus_hc, f_f1_ok, f_f2_ok. reflexivity.
Qed.
(** The first [k] words; the sizes are parameters to keep them folded in the proof. *)
Definition f_hwords_ (n m r : nat) (key iv : list N) (k : nat) : list N :=
  let W := f_W n 0 (hc_words key ++ hc_words iv) in
  let mp := load 0 (firstn 1024 (skipn 512 W)) (PositiveMap.empty N) in
  let mq := load 0 (skipn m W) (PositiveMap.empty N) in
  fst (f_hrun k 0 (snd (f_hrun r 0 (mp, mq)))).
Definition f_hwords (key iv : list N) (k : nat) : list N := f_hwords_ 2560 1536 4096 key iv k.
Lemma f_hwords_gen n m r key iv k : f_hwords_ n m r key iv k =
  let W := fast_W n 0 (hc_words key ++ hc_words iv) in
  let mp := load 0 (firstn 1024 (skipn 512 W)) (PositiveMap.empty N) in
  let mq := load 0 (skipn m W) (PositiveMap.empty N) in
  fst (fast_run k 0 (snd (fast_run r 0 (mp, mq)))).
Proof. unfold f_hwords_. rewrite f_W_ok, !f_hrun_ok. reflexivity. Qed.
Lemma f_hwords_ok key iv k : f_hwords key iv k = map (hc_word key iv) (seq 0 k).
Proof. unfold f_hwords. rewrite f_hwords_gen. exact (fast_words_ok key iv k). Qed.

(** ** RC4 *)
Definition rrel (m : trie) (P : N -> N) : Prop := forall x, x < 256 -> tget m x = P x.
Definition f_swap (m : trie) (a b : N) : trie :=
  let va := tget m a in let vb := tget m b in tset (tset m b va) a vb.
Lemma f_swap_ok m P a b : a < 256 -> b < 256 -> rrel m P -> rrel (f_swap m a b) (rc_swap P a b).
Proof.
  intros Ha Hb H x Hx. unfold f_swap, rc_swap. cbv zeta. rewrite tget_tset. unfold hc_upd.
  destruct (x =? a); [apply H, Hb|]. rewrite tget_tset. unfold hc_upd. destruct (x =? b); [apply H, Ha|apply H, Hx].
Qed.
(** The key schedule from step [i] on, with the key bytes still to be used. *)
Fixpoint f_ksa (key ks : list N) (n : nat) (i : N) (m : trie) (j : N) : trie :=
  match n with
  | O => m
  | S n' =>
      let ks := match ks with [] => key | _ => ks end in
      let j := N.land (j + tget m i + hd 0 ks) 255 in
      f_ksa key (tl ks) n' (i + 1) (f_swap m i j) j
  end.
Lemma land255 x : N.land x 255 = x mod 256. Proof. apply (fmask_ok 8). Qed.
Lemma ksa_j_lt key n : snd (rc_ksa key n) < 256.
Proof.
  destruct n as [|n]; [reflexivity|]. cbn [rc_ksa]. destruct (rc_ksa key n). cbn [snd]. apply N.mod_lt. discriminate.
Qed.
Lemma f_ksa_ok key n : key <> [] -> forall i m ks, (i + n <= 256)%nat ->
  (ks = skipn (i mod length key) key \/ (ks = [] /\ (i mod length key = 0)%nat)) ->
  rrel m (fst (rc_ksa key i)) ->
  rrel (f_ksa key ks n (N.of_nat i) m (snd (rc_ksa key i))) (fst (rc_ksa key (i + n))).
Proof.
  intros Hk. assert (Hl : (length key <> 0)%nat) by (destruct key; [contradiction|discriminate]).
  induction n as [|n IH]; intros i m ks Hi Hks Hm; [rewrite Nat.add_0_r; exact Hm|].
  cbn [f_ksa].
  assert (E : match ks with [] => key | _ => ks end = skipn (i mod length key) key).
  { destruct Hks as [->|[-> ->]]; [|reflexivity].
    destruct (skipn (i mod length key) key) eqn:E; [|reflexivity].
    apply (f_equal (@length N)) in E. rewrite skipn_length in E. cbn [length] in E.
    assert (B := Nat.mod_upper_bound i (length key) Hl). lia. }
  rewrite E. clear E ks Hks.
  assert (B := Nat.mod_upper_bound i (length key) Hl).
  assert (Eh : hd 0 (skipn (i mod length key) key) = nth (i mod length key) key 0).
  { generalize (i mod length key)%nat. clear. induction key as [|k key IH]; intros [|q]; try reflexivity. apply (IH q). }
  assert (Et : tl (skipn (i mod length key) key) = skipn (S (i mod length key)) key).
  { generalize (i mod length key)%nat. clear. induction key as [|k key IH]; intros [|q]; try reflexivity. apply (IH q). }
  rewrite Eh, Et, land255.
  replace (N.of_nat i + 1) with (N.of_nat (S i)) by lia.
  specialize (IH (S i) (f_swap m (N.of_nat i) ((snd (rc_ksa key i) + tget m (N.of_nat i) + nth (i mod length key) key 0) mod 256))
    (skipn (S (i mod length key)) key)).
  replace (S i + n)%nat with (i + S n)%nat in IH by lia.
  assert (ES : rc_ksa key (S i) = let j := (snd (rc_ksa key i) + fst (rc_ksa key i) (N.of_nat i) + nth (i mod length key) key 0) mod 256 in
    (rc_swap (fst (rc_ksa key i)) (N.of_nat i) j, j)).
  { cbn [rc_ksa]. destruct (rc_ksa key i) as [P j]. reflexivity. }
  rewrite ES in IH. cbv zeta in IH. cbn [fst snd] in IH.
  assert (Em : tget m (N.of_nat i) = fst (rc_ksa key i) (N.of_nat i)) by (apply Hm; lia).
  rewrite Em in IH. rewrite Em. apply IH; [lia| |].
  - assert (A := Nat.div_mod i (length key) Hl).
    destruct (Nat.eq_dec (S (i mod length key)) (length key)) as [Q|Q].
    + right. split; [rewrite Q; apply skipn_all|].
      replace (S i) with ((1 + i / length key) * length key)%nat by lia. apply Nat.mod_mul. exact Hl.
    + left. f_equal. replace (S i) with (S (i mod length key) + (i / length key) * length key)%nat by lia.
      rewrite Nat.mod_add by exact Hl. symmetry. apply Nat.mod_small. lia.
  - apply f_swap_ok; [lia|apply N.mod_lt; discriminate|exact Hm].
Qed.
(** [k] bytes of keystream from a state. *)
Fixpoint f_rc4 (k : nat) (m : trie) (i j : N) : list N :=
  match k with
  | O => []
  | S k' =>
      let i := N.land (i + 1) 255 in
      let a := tget m i in
      let j := N.land (j + a) 255 in
      let b := tget m j in
      let m := tset (tset m j a) i b in
      tget m (N.land (tget m i + tget m j) 255) :: f_rc4 k' m i j
  end.
Lemma f_rc4_ok key k : forall n m P i j, Nat.iter n rc_step (rc_init key) = (P, i, j) -> i < 256 -> j < 256 -> rrel m P ->
  f_rc4 k m i j = map (rc_byte key) (seq n k).
Proof.
  induction k as [|k IH]; intros n m P i j E Hi Hj Hm; [reflexivity|]. cbn [f_rc4 seq map]. cbv zeta.
  rewrite !land255. set (i1 := (i + 1) mod 256). assert (Hi1 : i1 < 256) by (apply N.mod_lt; discriminate).
  rewrite (Hm i1 Hi1). set (j1 := (j + P i1) mod 256). assert (Hj1 : j1 < 256) by (apply N.mod_lt; discriminate).
  assert (Hs : rrel (tset (tset m j1 (P i1)) i1 (tget m j1)) (rc_swap P i1 j1)).
  { pose proof (f_swap_ok m P i1 j1 Hi1 Hj1 Hm) as H. unfold f_swap in H. cbv zeta in H. rewrite (Hm i1 Hi1) in H. exact H. }
  set (m1 := tset (tset m j1 (P i1)) i1 (tget m j1)) in *. clearbody m1.
  assert (E1 : Nat.iter (S n) rc_step (rc_init key) = (rc_swap P i1 j1, i1, j1)).
  { change (Nat.iter (S n) rc_step (rc_init key)) with (rc_step (Nat.iter n rc_step (rc_init key))). rewrite E. reflexivity. }
  f_equal.
  - unfold rc_byte. rewrite E1. unfold rc_out. rewrite (Hs i1 Hi1), (Hs j1 Hj1). apply Hs. apply N.mod_lt. discriminate.
  - apply (IH (S n) m1 (rc_swap P i1 j1) i1 j1); assumption.
Qed.
Definition f_start : trie := load 0 (map N.of_nat (seq 0 256)) (PositiveMap.empty N).
Definition f_rc4_bytes (key : list N) (k : nat) : list N := f_rc4 k (f_ksa key [] 256 0 f_start 0) 0 0.
Lemma f_rc4_bytes_ok key k : key <> [] -> f_rc4_bytes key k = map (rc_byte key) (seq 0 k).
Proof.
  intros Hk. unfold f_rc4_bytes. apply (f_rc4_ok key k 0 _ (fst (rc_ksa key 256)) 0 0); try reflexivity.
  assert (H := f_ksa_ok key 256 Hk 0 f_start []). apply H; [lia| |].
  - right. split; [reflexivity|]. apply Nat.mod_0_l. destruct key; [contradiction|discriminate].
  - intros x Hx. unfold f_start. rewrite tget_load, map_length, seq_length.
    destruct ((0 <=? x) && (x <? 0 + N.of_nat 256)) eqn:E; [|lia].
    rewrite (nth_indep _ 0 (N.of_nat 0)) by (rewrite map_length, seq_length; lia).
    rewrite map_nth, seq_nth by lia. cbn [rc_ksa fst]. lia.
Qed.

(** ** Ranges of a keystream made of blocks *)
Definition from_blocks (bs : N) (blk : N -> list N) (p : N) (n : nat) : list N :=
  firstn n (skipn (N.to_nat (p mod bs))
    (flat_map (fun i => blk (p / bs + N.of_nat i)) (seq 0 (N.to_nat ((p mod bs + N.of_nat n + bs - 1) / bs))))).
Lemma nth_flat_map_blocks (blk : nat -> list N) b : (0 < b)%nat -> (forall i, length (blk i) = b) ->
  forall k s q, (q < k * b)%nat -> nth q (flat_map blk (seq s k)) 0 = nth (q mod b) (blk (s + q / b)%nat) 0.
Proof.
  intros Hb Hl. induction k as [|k IH]; intros s q Hq; [lia|]. cbn [seq flat_map].
  destruct (Nat.lt_ge_cases q b) as [L|L].
  - rewrite app_nth1 by (rewrite Hl; exact L). rewrite Nat.mod_small, Nat.div_small, Nat.add_0_r by exact L. reflexivity.
  - rewrite app_nth2 by (rewrite Hl; exact L). rewrite Hl, IH by (cbn in Hq; lia).
    assert (E : q = (q - b + 1 * b)%nat) by lia.
    assert (E1 : (q mod b = (q - b) mod b)%nat) by (rewrite E at 1; apply Nat.mod_add; lia).
    assert (E2 : (q / b = (q - b) / b + 1)%nat) by (rewrite E at 1; apply Nat.div_add; lia).
    rewrite E1, E2. f_equal. f_equal. lia.
Qed.
Lemma flat_map_seq_len (blk : nat -> list N) b : (forall i, length (blk i) = b) ->
  forall k s, length (flat_map blk (seq s k)) = (k * b)%nat.
Proof.
  intros Hl. induction k as [|k IH]; intros s; [reflexivity|]. cbn [seq flat_map]. rewrite app_length, Hl, IH. reflexivity.
Qed.
Lemma nth_firstn_skipn n r j (l : list N) : (j < n)%nat -> nth j (firstn n (skipn r l)) 0 = nth (r + j) l 0.
Proof.
  intros H. revert l. induction r as [|r IH]; intros l; [|destruct l as [|x l]; [destruct n, j; reflexivity|apply IH]].
  cbn [skipn Nat.add]. revert n H l. induction j as [|j IH]; intros [|n] H [|x l]; try lia; try reflexivity.
  cbn [firstn nth]. apply IH. lia.
Qed.
Lemma blocks_range bs blk b k p n : 0 < bs -> (forall i, length (blk i) = N.to_nat bs) ->
  bs * b <= p -> p + N.of_nat n <= bs * (b + N.of_nat k) ->
  firstn n (skipn (N.to_nat (p - bs * b)) (flat_map (fun i => blk (b + N.of_nat i)) (seq 0 k))) = ks_range (ks_of_blocks bs blk) p n.
Proof.
  intros Hb Hl Hp Hn. unfold ks_range. set (r := p - bs * b).
  assert (Hk : (N.to_nat r + n <= k * N.to_nat bs)%nat).
  { assert (E : (k * N.to_nat bs = N.to_nat (bs * N.of_nat k))%nat) by (rewrite N2Nat.inj_mul, Nat2N.id; lia). rewrite E.
    assert (r + N.of_nat n <= bs * N.of_nat k) by (unfold r; lia). lia. }
  assert (HL : length (flat_map (fun i => blk (b + N.of_nat i)) (seq 0 k)) = (k * N.to_nat bs)%nat)
    by (apply flat_map_seq_len; intros; apply Hl).
  apply (nth_ext _ _ 0 0).
  - rewrite firstn_length, skipn_length, HL, map_length, seq_length. lia.
  - intros j Hj. rewrite firstn_length, skipn_length, HL in Hj.
    rewrite nth_firstn_skipn by lia.
    rewrite (nth_indep (map _ _) 0 ((fun i => ks_of_blocks bs blk (p + N.of_nat i)) 0%nat)) by (rewrite map_length, seq_length; lia).
    rewrite (map_nth (fun i => ks_of_blocks bs blk (p + N.of_nat i)) (seq 0 n) 0%nat j), seq_nth by lia. cbn [Nat.add].
    rewrite (nth_flat_map_blocks (fun i => blk (b + N.of_nat i)) (N.to_nat bs)) by (try lia; intros; apply Hl).
    unfold ks_of_blocks. cbn [Nat.add].
    replace (p + N.of_nat j) with ((r + N.of_nat j) + b * bs) by (unfold r; lia).
    rewrite N.mod_add, N.div_add by lia.
    replace (N.to_nat r + j)%nat with (N.to_nat (r + N.of_nat j)) by lia.
    rewrite <- N2Nat.inj_mod, <- N2Nat.inj_div, N2Nat.id. do 2 f_equal. lia.
Qed.
Lemma from_blocks_ok bs blk p n : 0 < bs -> (forall i, length (blk i) = N.to_nat bs) ->
  from_blocks bs blk p n = ks_range (ks_of_blocks bs blk) p n.
Proof.
  intros Hb Hl. assert (D := N.div_mod' p bs). unfold from_blocks.
  replace (p mod bs) with (p - bs * (p / bs)) by lia. apply blocks_range; [assumption|assumption|lia|].
  set (t := p - bs * (p / bs) + N.of_nat n + bs - 1).
  assert (D2 := N.div_mod' t bs). assert (L := N.mod_lt t bs ltac:(lia)). rewrite N2Nat.id, N.mul_add_distr_l. unfold t in *. lia.
Qed.
Lemma ks_range_ext f g p n : (forall i, f i = g i) -> ks_range f p n = ks_range g p n.
Proof. intros H. unfold ks_range. apply map_ext. intros i. apply H. Qed.
Lemma ks_of_blocks_ext bs f g : (forall i, f i = g i) -> forall i, ks_of_blocks bs f i = ks_of_blocks bs g i.
Proof. intros H i. unfold ks_of_blocks. rewrite H. reflexivity. Qed.

(** ** Block lengths *)
Lemma f_double_round_len s : length s = 16%nat -> length (f_double_round s) = 16%nat.
Proof.
  intros H. destr16 s H. rewrite f_double_round_ok. cbn [sp_double_round].
  repeat match goal with |- context [sp_QR ?a ?b ?c ?d] => destruct (sp_QR a b c d) as [[[? ?] ?] ?] end. reflexivity.
Qed.
Lemma f_doubleround_len s : length s = 16%nat -> length (f_doubleround s) = 16%nat.
Proof.
  intros H. destr16 s H. cbn [f_doubleround].
  repeat match goal with |- context [f_quarterround ?a ?b ?c ?d] => destruct (f_quarterround a b c d) as [[[? ?] ?] ?] end. reflexivity.
Qed.
Lemma f_iter_len f n : (forall s : list N, length s = 16%nat -> length (f s) = 16%nat) -> forall s, length s = 16%nat -> length (f_iter n f s) = 16%nat.
Proof. intros Hf. induction n as [|n IH]; intros s H; [exact H|]. apply IH, Hf, H. Qed.
Lemma f_serialize_len s : length (f_serialize s) = (4 * length s)%nat.
Proof. induction s as [|x s IH]; [reflexivity|]. cbn [f_serialize flat_map app length] in *. unfold f_serialize in IH. rewrite IH. lia. Qed.
Lemma f_core_len n s : length s = 16%nat -> length (f_serialize (f_core n s)) = 64%nat.
Proof.
  intros H. rewrite f_serialize_len. unfold f_core. rewrite map_length, combine_length, (f_iter_len _ _ f_double_round_len) by exact H.
  rewrite H. reflexivity.
Qed.
Lemma f_sblock_len n k nonce i : length (f_sblock n k nonce i) = 64%nat.
Proof.
  unfold f_sblock, f_score. rewrite f_serialize_len, map_length, combine_length, (f_iter_len _ _ f_doubleround_len); reflexivity.
Qed.

(** ** Every cipher *)
Definition f_range (c : cipher) (p : N) (n : nat) : list N :=
  match c with
  | CChaCha Ietf dr key iv => from_blocks 64 (fun i => f_serialize (f_core dr (sp_ietf_state key i iv))) p n
  | CChaCha Legacy dr key iv => from_blocks 64 (fun i => f_serialize (f_core dr (sp_djb_state key i iv))) p n
  | CXChaCha dr key iv =>
      let key := f_hchacha dr key (firstn 16 iv) in
      from_blocks 64 (fun i => f_serialize (f_core dr (sp_ietf_state key i ([0; 0; 0; 0] ++ skipn 16 iv)))) p n
  | CSalsa dr key iv => from_blocks 64 (f_sblock dr key iv) p n
  | CXSalsa dr key iv => let key := f_hsalsa dr key (firstn 16 iv) in from_blocks 64 (f_sblock dr key (skipn 16 iv)) p n
  | CRabbit key iv =>
      firstn n (skipn (N.to_nat p) (f_rblocks (N.to_nat ((p + N.of_nat n + 15) / 16)) (f_iv_setup (rb_int iv) (f_key_setup (rb_int key)))))
  | CRabbitKeyOnly key =>
      firstn n (skipn (N.to_nat p) (f_rblocks (N.to_nat ((p + N.of_nat n + 15) / 16)) (f_key_setup (rb_int key))))
  | CHc256 key iv =>
      firstn n (skipn (N.to_nat p) (flat_map (f_octets 4) (f_hwords key iv (N.to_nat ((p + N.of_nat n + 3) / 4)))))
  | CRc4 key => skipn (N.to_nat p) (f_rc4_bytes key (N.to_nat p + n))
  end.
Lemma f_rblocks_range s blk p n : (forall i, blk (N.of_nat i) = rb_octets 16 (rb_block s i)) -> (forall i, length (blk i) = 16%nat) ->
  firstn n (skipn (N.to_nat p) (f_rblocks (N.to_nat ((p + N.of_nat n + 15) / 16)) s)) = ks_range (ks_of_blocks 16 blk) p n.
Proof.
  intros Hblk Hl. change s with (Nat.iter 0 rb_next s) at 1. rewrite f_rblocks_ok.
  rewrite <- (blocks_range 16 blk 0 (N.to_nat ((p + N.of_nat n + 15) / 16))); [|reflexivity|exact Hl|lia|lia].
  rewrite N.mul_0_r, N.sub_0_r. do 2 f_equal. apply flat_map_ext. intros i. rewrite N.add_0_l. symmetry. apply Hblk.
Qed.
Lemma map_seq_from {A} (f : nat -> A) a n : map f (seq a n) = map (fun i => f (a + i)%nat) (seq 0 n).
Proof.
  revert a. induction n as [|n IH]; intros a; [reflexivity|]. cbn [seq map]. rewrite Nat.add_0_r. f_equal.
  rewrite IH, <- (seq_shift n 0), map_map. apply map_ext. intros i. f_equal. lia.
Qed.
Lemma f_range_ok c p n : cipher_ok c -> f_range c p n = ks_range (cipher_ks c) p n.
Proof.
  intros Hc. destruct c as [[] dr key iv | dr key iv | dr key iv | dr key iv | key iv | key | key iv | key]; cbn [f_range cipher_ks]; cbv zeta.
  - rewrite from_blocks_ok by (try reflexivity; intros i; apply f_core_len; reflexivity).
    apply ks_range_ext, ks_of_blocks_ext. intros i. rewrite f_serialize_ok, f_core_ok. reflexivity.
  - rewrite from_blocks_ok by (try reflexivity; intros i; apply f_core_len; reflexivity).
    apply ks_range_ext, ks_of_blocks_ext. intros i. rewrite f_serialize_ok, f_core_ok. reflexivity.
  - rewrite from_blocks_ok by (try reflexivity; intros i; apply f_core_len; reflexivity).
    apply ks_range_ext, ks_of_blocks_ext. intros i. rewrite f_serialize_ok, f_core_ok, f_hchacha_ok. reflexivity.
  - rewrite from_blocks_ok by (try reflexivity; intros i; apply f_sblock_len).
    apply ks_range_ext, ks_of_blocks_ext. intros i. apply f_sblock_ok.
  - rewrite from_blocks_ok by (try reflexivity; intros i; apply f_sblock_len).
    apply ks_range_ext, ks_of_blocks_ext. intros i. rewrite f_sblock_ok, f_hsalsa_ok. reflexivity.
  - rewrite f_iv_setup_ok, f_key_setup_ok. apply f_rblocks_range; intros i; [rewrite Nat2N.id; reflexivity|reflexivity].
  - rewrite f_key_setup_ok. apply f_rblocks_range; intros i; [rewrite Nat2N.id; reflexivity|reflexivity].
  - rewrite f_hwords_ok. rewrite <- (blocks_range 4 _ 0 (N.to_nat ((p + N.of_nat n + 3) / 4))); [|reflexivity|reflexivity|lia|lia].
    rewrite N.mul_0_r, N.sub_0_r. do 2 f_equal. rewrite flat_map_concat_map, flat_map_concat_map, map_map. f_equal.
    apply map_ext. intros i. rewrite N.add_0_l, Nat2N.id. apply f_octets_ok.
  - rewrite f_rc4_bytes_ok by (destruct Hc as [Hc _]; destruct key; [cbn in Hc; lia|discriminate]).
    rewrite seq_app, map_app, skipn_app, map_length, seq_length.
    rewrite skipn_all2 by (rewrite map_length, seq_length; lia). rewrite Nat.sub_diag. cbn [app skipn Nat.add].
    unfold ks_range. rewrite map_seq_from. apply map_ext. intros i. f_equal. lia.
Qed.

(** ** Running a history
    [step_with rng] is [step_spec] with the keystream given by ranges; [strict] is tested
    last, so that a run which never gets there computes with [strict] unknown. *)
Definition f_xor (rng : N -> nat -> list N) (p : N) (d : list N) : list N :=
  map (fun x => N.lxor (fst x) (snd x)) (combine d (rng p (length d))).
Definition step_with (rng : N -> nat -> list N) (lim : option limits) (strict : bool) (p : N) (o : op) : option (ret * N) :=
  let ok n := match lim with None => true | Some l => granted l p (N.of_nat n) end in
  match o with
  | Apply d => if ok (length d) then Some (Bytes (f_xor rng p d), p + N.of_nat (length d)) else Some (Err, p)
  | ApplyB2b d m =>
      if (length d =? m)%nat
      then if ok (length d) then Some (Bytes (f_xor rng p d), p + N.of_nat (length d)) else Some (Err, p)
      else Some (Err, p)
  | Write n => if ok n then Some (Bytes (rng p n), p + N.of_nat n) else Some (Err, p)
  | Seek q =>
      match lim with
      | None => Some (Err, p)
      | Some l => if q / l_bs l <? l_blocks l
                  then if (l_usable l <? q) && strict then None else Some (Done, q)
                  else Some (Err, p)
      end
  | CurPos tmax =>
      match lim with
      | None => Some (Err, p)
      | Some l => let q := p mod l_period l in
                  let up := (q + l_bs l - 1) / l_bs l * l_bs l in
                  if (q <=? l_usable l) && (up <? tmax) then Some (Pos q, p) else Some (Err, p)
      end
  end.
Fixpoint run_with (rng : N -> nat -> list N) (lim : option limits) (strict : bool) (p : N) (h : list op) : option (list ret * N) :=
  match h with
  | [] => Some ([], p)
  | o :: h' =>
      match step_with rng lim strict p o with
      | None => None
      | Some (r, p') =>
          match run_with rng lim strict p' h' with
          | None => None
          | Some (rs, p'') => Some (r :: rs, p'')
          end
      end
  end.
Lemma f_xor_ok rng ks p d : (forall p n, rng p n = ks_range ks p n) -> f_xor rng p d = ks_xor ks p d.
Proof. intros H. unfold f_xor, ks_xor. rewrite H. reflexivity. Qed.
Lemma run_with_ok rng ks lim strict : (forall p n, rng p n = ks_range ks p n) -> forall h p,
  run_with rng lim strict p h = run_spec ks lim strict p h.
Proof.
  intros H. induction h as [|o h IH]; intros p; [reflexivity|]. cbn [run_with run_spec].
  assert (E : step_with rng lim strict p o = step_spec ks lim strict p o).
  { unfold step_with, step_spec. destruct o; rewrite ?H, ?(f_xor_ok _ _ _ _ H); try reflexivity.
    destruct lim as [l|]; [|reflexivity]. rewrite andb_comm. reflexivity. }
  rewrite E. destruct (step_spec ks lim strict p o) as [[r p']|]; [|reflexivity]. rewrite IH. reflexivity.
Qed.

(** Key material and buffer sizes, as booleans. *)
Definition octets_b (n : nat) (l : list N) : bool := (length l =? n)%nat && forallb (fun b => b <? 256) l.
Definition cipher_okb (c : cipher) : bool :=
  match c with
  | CChaCha Ietf _ key iv => octets_b 32 key && octets_b 12 iv
  | CChaCha Legacy _ key iv => octets_b 32 key && octets_b 8 iv
  | CXChaCha _ key iv => octets_b 32 key && octets_b 24 iv
  | CSalsa _ key iv => octets_b 32 key && octets_b 8 iv
  | CXSalsa _ key iv => octets_b 32 key && octets_b 24 iv
  | CRabbit key iv => octets_b 16 key && octets_b 8 iv
  | CRabbitKeyOnly key => octets_b 16 key
  | CHc256 key iv => octets_b 32 key && octets_b 32 iv
  | CRc4 key => (1 <=? length key)%nat && (length key <=? 256)%nat && forallb (fun b => b <? 256) key
  end.
Definition call_okb (o : op) : bool :=
  match o with
  | Apply d | ApplyB2b d _ => N.of_nat (length d) <? 65536
  | Write n => N.of_nat n <? 65536
  | _ => true
  end.
Lemma octets_b_ok n l : octets_b n l = true -> octets n l.
Proof.
  intros H. apply andb_prop in H. destruct H as [A B]. split; [apply Nat.eqb_eq, A|]. apply Forall_forall. intros x Hx.
  apply N.ltb_lt. rewrite forallb_forall in B. apply B, Hx.
Qed.
Lemma cipher_okb_ok c : cipher_okb c = true -> cipher_ok c.
Proof.
  destruct c as [[] dr key iv | dr key iv | dr key iv | dr key iv | key iv | key | key iv | key]; cbn [cipher_okb cipher_ok]; intros H;
    try (apply octets_b_ok, H); apply andb_prop in H; destruct H as [A B]; try (split; apply octets_b_ok; assumption).
  apply andb_prop in A. destruct A as [A1 A2]. apply Nat.leb_le in A1. apply Nat.leb_le in A2. split; [lia|]. apply Forall_forall. intros x Hx.
    apply N.ltb_lt. rewrite forallb_forall in B. apply B, Hx.
Qed.
Lemma call_okb_ok e o : env_ok e -> call_okb o = true -> call_ok e o.
Proof.
  intros He H. assert (65536 <= 2 ^ e_usz e) by (destruct He as [-> | [-> | ->]]; vm_compute; discriminate).
  destruct o; cbn [call_okb call_ok] in *; try exact I; apply N.ltb_lt in H; lia.
Qed.

(** *** Evaluating any cipher in any environment *)
Definition eval_run (c : cipher) (strict : bool) (h : list op) : Res (list ret) :=
  match run_with (f_range c) (cipher_lim c) strict 0 h with Some (rs, _) => Ok rs | None => Panic end.
Theorem eval_run_ok e c h : env_ok e -> cipher_okb c = true -> forallb call_okb h = true ->
  cipher_run e c h = eval_run c (cipher_strict e c) h.
Proof.
  intros He Hc Hh. apply cipher_okb_ok in Hc. rewrite cipher_run_ok; [|assumption|assumption|].
  - unfold eval_run. rewrite (run_with_ok _ (cipher_ks c)) by (intros; apply f_range_ok, Hc). reflexivity.
  - apply Forall_forall. intros o Ho. apply call_okb_ok; [exact He|]. rewrite forallb_forall in Hh. apply Hh, Ho.
Qed.

(** ** Generators
    [(b, ws)] remembers the words of block [b]. *)
Definition f_rg_block (dr : nat) (seed nonce : list N) (b : N) : list N := f_core dr (sp_djb_state seed (b mod 2 ^ 64) nonce).
Fixpoint f_take (dr : nat) (seed nonce : list N) (k : nat) (w : N) (mem : option (N * list N)) : list N * option (N * list N) :=
  match k with
  | O => ([], mem)
  | S k =>
      let b := w / 16 in
      let ws := match mem with
                | Some (b', ws) => if b' =? b then ws else f_rg_block dr seed nonce b
                | None => f_rg_block dr seed nonce b
                end in
      let (l, m) := f_take dr seed nonce k (w + 1) (Some (b, ws)) in
      (nth (N.to_nat (w mod 16)) ws 0 :: l, m)
  end.
Definition mem_ok (dr : nat) (seed nonce : list N) (mem : option (N * list N)) : Prop :=
  match mem with Some (b, ws) => ws = f_rg_block dr seed nonce b | None => True end.
Lemma f_take_ok dr g k : forall w mem, mem_ok dr (g_seed g) (rg_le 8 (g_stream g)) mem ->
  fst (f_take dr (g_seed g) (rg_le 8 (g_stream g)) k w mem) = map (fun i => rg_word dr (g_seed g) (g_stream g) (w + N.of_nat i)) (seq 0 k)
  /\ mem_ok dr (g_seed g) (rg_le 8 (g_stream g)) (snd (f_take dr (g_seed g) (rg_le 8 (g_stream g)) k w mem)).
Proof.
  induction k as [|k IH]; intros w mem Hm; cbn [f_take]; [auto|]. cbv zeta.
  assert (E : match mem with Some (b', ws) => if b' =? w / 16 then ws else f_rg_block dr (g_seed g) (rg_le 8 (g_stream g)) (w / 16)
              | None => f_rg_block dr (g_seed g) (rg_le 8 (g_stream g)) (w / 16) end = f_rg_block dr (g_seed g) (rg_le 8 (g_stream g)) (w / 16)).
  { destruct mem as [[b' ws]|]; [|reflexivity]. destruct (N.eqb_spec b' (w / 16)) as [<-|]; [exact Hm|reflexivity]. }
  rewrite E. specialize (IH (w + 1) (Some (w / 16, f_rg_block dr (g_seed g) (rg_le 8 (g_stream g)) (w / 16))) eq_refl).
  destruct (f_take _ _ _ k (w + 1) _) as [l m]. cbn [fst snd] in *. destruct IH as [-> Hm']. split; [|exact Hm'].
  cbn [seq map]. change (N.of_nat 0) with 0. rewrite N.add_0_r. f_equal.
  - unfold rg_word, f_rg_block. rewrite f_core_ok. reflexivity.
  - rewrite <- seq_shift, map_map. apply map_ext. intros i. f_equal. lia.
Qed.
Definition f_rg_step (dr : nat) (g : rg) (mem : option (N * list N)) (o : rop) : rret * rg * option (N * list N) :=
  let take k := f_take dr (g_seed g) (rg_le 8 (g_stream g)) k (g_pos g) mem in
  match o with
  | NextU32 => let (l, m) := take 1%nat in (Num (nth 0 l 0), rg_move g (g_pos g + 1), m)
  | NextU64 => let (l, m) := take 2%nat in (Num (nth 0 l 0 + 2 ^ 32 * nth 1 l 0), rg_move g (g_pos g + 2), m)
  | Fill n => let k := ((n + 3) / 4)%nat in let (l, m) := take k in
              (Buf (firstn n (flat_map (rg_le 4) l)), rg_move g (g_pos g + N.of_nat k), m)
  | SetStream s => (Unit, {| g_seed := g_seed g; g_stream := s; g_pos := 0 |}, None)
  | o => (rg_step dr g o, mem)
  end.
Fixpoint f_checked (dr : nat) (g : rg) (mem : option (N * list N)) (i : N) (h : list rop) : option (list rret) :=
  match h with
  | [] => Some []
  | o :: h' =>
      if match o with GetBlockPos => straddles g i | _ => false end then None
      else match f_rg_step dr g mem o with
           | (x, g1, m) => match f_checked dr g1 m (handed o i) h' with Some xs => Some (x :: xs) | None => None end
           end
  end.
Lemma f_rg_step_ok dr g mem o : mem_ok dr (g_seed g) (rg_le 8 (g_stream g)) mem ->
  exists m, f_rg_step dr g mem o = (rg_step dr g o, m)
            /\ mem_ok dr (g_seed (snd (rg_step dr g o))) (rg_le 8 (g_stream (snd (rg_step dr g o)))) m.
Proof.
  intros Hm. destruct o as [ | | k | | | | | | s | | ]; cbn [f_rg_step rg_step snd rg_move g_seed g_stream]; cbv zeta;
    try (exists mem; split; [reflexivity|exact Hm]).
  - destruct (f_take_ok dr g 1 (g_pos g) mem Hm) as [E Hm']. destruct (f_take _ _ _ 1 _ _) as [l m]. cbn [fst snd] in *. subst l. eauto.
  - destruct (f_take_ok dr g 2 (g_pos g) mem Hm) as [E Hm']. destruct (f_take _ _ _ 2 _ _) as [l m]. cbn [fst snd] in *. subst l. eauto.
  - destruct (f_take_ok dr g ((k + 3) / 4) (g_pos g) mem Hm) as [E Hm']. destruct (f_take _ _ _ ((k + 3) / 4) _ _) as [l m]. cbn [fst snd] in *. subst l. eauto.
  - exists None. split; [reflexivity|exact I].
Qed.
Lemma f_checked_ok dr h : forall g mem i, mem_ok dr (g_seed g) (rg_le 8 (g_stream g)) mem -> f_checked dr g mem i h = rg_checked dr g i h.
Proof.
  induction h as [|o h IH]; intros g mem i Hm; cbn [f_checked rg_checked]; [reflexivity|].
  destruct (match o with GetBlockPos => straddles g i | _ => false end); [reflexivity|].
  destruct (f_rg_step_ok dr g mem o Hm) as (m & -> & Hm'). destruct (rg_step dr g o) as [x g1]. cbn [snd] in Hm'.
  rewrite (IH g1 m (handed o i) Hm'). reflexivity.
Qed.

(** *** Evaluating a generator in any build, with or without overflow checks *)
Definition rop_okb (o : rop) : bool :=
  match o with SetWordPos p => p <? 2 ^ 128 | SetBlockPos b => b <? 2 ^ 64 | SetStream t => t <? 2 ^ 64 | _ => true end.
Theorem eval_rng_ok n c p ck seed h xs : octets_b 32 seed = true -> forallb rop_okb h = true ->
  f_checked n (fresh seed) None 0 h = Some xs ->
  exists r r', rng_from_seed seed = Ok r /\ rng_run (rng_gen c p n) ck r h = Ok (xs, r').
Proof.
  intros Hs Hh E. apply octets_b_ok in Hs. rewrite f_checked_ok in E by exact I.
  assert (Hok : Forall rop_ok h).
  { apply Forall_forall. intros o Ho. rewrite forallb_forall in Hh. specialize (Hh o Ho). destruct o; try exact I; apply N.ltb_lt, Hh. }
  destruct ck.
  - destruct (C26_history n c p seed h Hs Hok) as (r & Er & H). rewrite E in H. destruct H as (r' & H). eauto.
  - apply C26_answers in E. subst xs. destruct (C21_history n c p false seed h Hs Hok (or_introl eq_refl)) as (r & r' & Er & H). eauto.
Qed.
