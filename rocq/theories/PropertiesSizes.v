(** Final theorems C66 (construction from slices, declared sizes) and C67 (Rabbit's IV
    setup on a used core). *)
From Coq Require Import String.
From Verif Require Import Word Res WordLemmas Hex PropCommon SpecStream SpecRabbit SpecChaCha SpecSalsa SpecHC256 SpecRC4 ChaChaCore ChaChaProofs ChaChaDispatch
  ChaChaDispatchProofs XChaCha Ciphers CipherWrapper WrapperProofs CiphersProofs StreamLemmas Salsa SalsaProofs Rabbit RabbitProofs Hc256 Hc256Proofs
  Rc4 Rc4Proofs Sizes PropertiesChaCha PropertiesSalsa PropertiesHc256 PropertiesStream.
From Coq Require Import ZArith Lia ZifyBool ZifyNat ZifyN.
Ltac Zify.zify_post_hook ::= Z.div_mod_to_equations.
Local Open Scope string_scope.
Local Open Scope N_scope.
Local Open Scope list_scope.

(** ** C66 *)
(** The lengths each type is meant to take. *)
Definition lengths_ok (t : ty) (k i : nat) : Prop :=
  match t with
  | TChaCha _ => k = 32%nat /\ i = 12%nat
  | TLegacy _ | TSalsa _ => k = 32%nat /\ i = 8%nat
  | TXChaCha _ | TXSalsa _ => k = 32%nat /\ i = 24%nat
  | TRabbit => k = 16%nat /\ i = 8%nat
  | TRabbitKeyOnly => k = 16%nat
  | THc256 => k = 32%nat /\ i = 32%nat
  | TRc4 => (1 <= k <= 256)%nat
  end.
Definition is_bytes (l : list N) : Prop := Forall (fun b => b < 256) l.

Theorem C66_accepted e t key iv h : env_ok e -> is_bytes key -> is_bytes iv -> Forall (call_ok e) h ->
  lengths_ok t (List.length key) (List.length iv) ->
  exists r, cipher_run e (new_of t key iv) h = r /\ slices_run e t key iv h = (do rs <- r; Ok (Some rs))
  /\ r = expect (run_spec (cipher_ks (new_of t key iv)) (cipher_lim (new_of t key iv)) (cipher_strict e (new_of t key iv)) 0 h).
Proof.
  intros He Bk Bi Hh Hl.
  assert (Hc : cipher_ok (new_of t key iv)).
  { destruct t; cbn [lengths_ok new_of cipher_ok] in *; unfold octets; tauto. }
  exists (cipher_run e (new_of t key iv) h). split; [reflexivity|]. split; [|apply cipher_run_ok; assumption].
  destruct t; cbn [slices_run lengths_ok key_size iv_size] in *.
  1-6, 8: destruct Hl as [-> ->]; reflexivity.
  1: rewrite Hl; reflexivity.
  cbn [new_of cipher_run]. destruct (new_ok key Hl) as (s & E & _). rewrite E. cbn [bind].
  destruct (rc4_run s h) as [[rs s']|]; reflexivity.
Qed.
Print Assumptions C66_accepted.

(** The keystream each type is meant to give, and how many blocks of it. *)
Definition type_ks (t : ty) (key iv : list N) : N -> N :=
  match t with
  | TChaCha n => ks_of_blocks 64 (fun i => sp_ietf_block n key i iv)
  | TLegacy n => ks_of_blocks 64 (fun i => sp_djb_block n key i iv)
  | TXChaCha n => ks_of_blocks 64 (fun i => sp_xchacha_block n key i iv)
  | TSalsa n => ks_of_blocks 64 (ss_block n key iv)
  | TXSalsa n => ks_of_blocks 64 (ss_xblock n key iv)
  | TRabbit => ks_of_blocks 16 (fun i => rb_key_iv_block key iv (N.to_nat i))
  | TRabbitKeyOnly => ks_of_blocks 16 (fun i => rb_key_block key (N.to_nat i))
  | THc256 => ks_of_blocks 4 (fun i => rb_octets 4 (hc_word key iv (N.to_nat i)))
  | TRc4 => fun j => rc_byte key (N.to_nat j)
  end.
Definition type_blocks (t : ty) : option N :=
  match t with
  | TChaCha _ | TXChaCha _ => Some (2 ^ 32)
  | TLegacy _ | TSalsa _ | TXSalsa _ => Some (2 ^ 64)
  | _ => None
  end.
(** The key and the IV given to the constructor are the ones used: the calls see the type's
    keystream. *)
Theorem C66_stream e t key iv h : env_ok e -> is_bytes key -> is_bytes iv -> Forall (call_ok e) h ->
  lengths_ok t (List.length key) (List.length iv) ->
  let strict := match t with TSalsa _ | TXSalsa _ => e_ck e | _ => false end in
  let lim := option_map (fun b => {| l_bs := 64; l_blocks := b |}) (type_blocks t) in
  slices_run e t key iv h
  = match run_spec (type_ks t key iv) lim strict 0 h with None => Panic | Some (rs, _) => Ok (Some rs) end.
Proof.
  intros He Bk Bi Hh Hl. destruct (C66_accepted e t key iv h He Bk Bi Hh Hl) as (r & _ & E & R).
  cbv zeta. rewrite E, R.
  destruct t; cbn [new_of cipher_ks cipher_lim cipher_strict type_ks type_blocks option_map];
    match goal with |- context [expect ?x] => destruct x as [[rs p]|] end; reflexivity.
Qed.
Print Assumptions C66_stream.
Theorem C66_rejected e t key iv h : ~ lengths_ok t (List.length key) (List.length iv) -> slices_run e t key iv h = Ok None.
Proof.
  intros Hl.
  assert (B : forall a b : nat, ~ (List.length key = a /\ List.length iv = b) -> ((List.length key =? a) && (List.length iv =? b))%nat = false).
  { intros a b H. apply Bool.not_true_iff_false. intros E. apply andb_prop in E as [E1 E2]. apply Nat.eqb_eq in E1, E2. auto. }
  destruct t; cbn [lengths_ok slices_run key_size iv_size] in *; try (rewrite B by exact Hl; reflexivity).
  - destruct (Nat.eqb_spec (List.length key) 16) as [E|E]; [contradiction|reflexivity].
  - rewrite new_err by lia. reflexivity.
Qed.
Print Assumptions C66_rejected.

(** ChaCha's constructor itself insists on the declared IV size: with any other it panics. *)
Theorem C66_iv_exact v key iv : List.length iv <> (match v with Ietf => 12 | Legacy => 8 end)%nat -> new_internal v key iv = Panic.
Proof.
  intros H. unfold new_internal.
  destruct (Nat.eqb (List.length iv) 4 || Nat.eqb (List.length iv) 8 || Nat.eqb (List.length iv) 12)%bool; [|reflexivity].
  cbn [assert_ bind]. cbv zeta.
  destruct v; cbn [counter_size] in *.
  - assert (E : (4 * List.length (skipn (4 / 4) (skipn 8 (skipn 4 (repeat 0%N 16)))) =? List.length iv)%nat = false)
      by (apply Nat.eqb_neq; cbn; congruence). rewrite E. reflexivity.
  - assert (E : (4 * List.length (skipn (8 / 4) (skipn 8 (skipn 4 (repeat 0%N 16)))) =? List.length iv)%nat = false)
      by (apply Nat.eqb_neq; cbn; congruence). rewrite E. reflexivity.
Qed.
Print Assumptions C66_iv_exact.
(** A block has the declared number of bytes: [k] blocks of a core are [block_size * k]
    bytes.  (RC4 has no core; its unit is the byte.) *)
Theorem C66_block_size e : env_ok e ->
  (forall v n k st, u32x16 st -> exists o st', sc_gen (chacha_score e v n) k st = Ok (o, st') /\ List.length o = (block_size (TChaCha n) * k)%nat)
  /\ (forall n k st, u32x16 st -> salsa_get_pos st + N.of_nat k < 2 ^ 64 ->
       exists o st', sc_gen (salsa_score e n) k st = Ok (o, st') /\ List.length o = (block_size (TSalsa n) * k)%nat)
  /\ (forall k s, rwf s -> exists o s', sc_gen (rabbit_score e) k s = Ok (o, s') /\ List.length o = (block_size TRabbit * k)%nat)
  /\ (forall k s, hvalid s -> exists o s', sc_gen (hc_score e) k s = Ok (o, s') /\ List.length o = (block_size THc256 * k)%nat)
  /\ (forall v n, sc_bs (chacha_score e v n) = block_size (TChaCha n)) /\ (forall n, sc_bs (salsa_score e n) = block_size (TSalsa n))
  /\ sc_bs (rabbit_score e) = block_size TRabbit /\ sc_bs (hc_score e) = block_size THc256.
Proof.
  intros He. split; [|split; [|split; [|split]]].
  - intros v n k st H. cbn [sc_gen chacha_score]. rewrite core_write_ok by exact H. do 2 eexists. split; [reflexivity|].
    rewrite blocks_from_length by exact H. reflexivity.
  - intros n k st H Hp. cbn [sc_gen salsa_score]. pose proof (C33_counter (e_ck e) n k st H) as P.
    destruct (salsa_write (e_ck e) n k st) as [[o st']|]; [|lia]. exists o, st'. split; [reflexivity|]. apply P.
  - intros k s H. cbn [sc_gen rabbit_score]. destruct (rabbit_write_ok (e_ck e) k s H) as (s' & E & _). exists (flat_map (fun i => rb_octets 16 (rb_block (to_spec s) i)) (seq 0 k)), s'.
    split; [exact E|]. apply (flat_map_len 16). intros i. unfold rb_octets. rewrite map_length. reflexivity.
  - assert (Hu : usize (2 ^ e_usz e)) by (unfold usize; destruct He as [-> | [-> | ->]]; [left | right; left | right; right]; reflexivity).
    intros k s H. cbn [sc_gen hc_score]. revert s H. induction k as [|k IH]; intros s H; cbn [hc_write].
    + do 2 eexists. split; reflexivity.
    + destruct (C41_no_panic (e_ck e) _ s Hu H) as (w & s1 & E & _ & H1). rewrite E. cbn [bind].
      destruct (IH s1 H1) as (o & s2 & E2 & L). rewrite E2. cbn [bind]. do 2 eexists. split; [reflexivity|].
      rewrite app_length, to_le_length, L. cbn [block_size]. lia.
  - split; [reflexivity|]. split; [reflexivity|]. split; reflexivity.
Qed.
Print Assumptions C66_block_size.
(** RC4's keystream comes a byte at a time: [k] blocks are [k] bytes. *)
Theorem C66_rc4_block key k : (1 <= List.length key <= 256)%nat -> is_bytes key ->
  exists s bs s', new_from_slice key = Ok (Some s) /\ rc4_run s [Write k] = Ok ([Bytes bs], s')
  /\ List.length bs = (block_size TRc4 * k)%nat /\ bs = map (rc_byte key) (seq 0 k).
Proof.
  intros L B. destruct (new_ok key L) as (s & E & Hwf & Hrep).
  destruct (rc4_run_ok s [Write k] Hwf 0) as (rs & P & R1 & R2). change (prga_iter (N.to_nat 0) s) with s in R2.
  cbn [run_spec step_spec] in R1. injection R1 as <- <-. exists s. do 2 eexists. split; [exact E|]. split; [exact R2|].
  unfold ks_range, sks. split; [rewrite map_length, seq_length; cbn [block_size]; lia|].
  apply map_ext. intros i. rewrite (sbyte_spec _ key); [f_equal; lia|exact Hwf|exact Hrep].
Qed.
Print Assumptions C66_rc4_block.
(** [Rc4::new] never reaches its [expect]. *)
Theorem C66_rc4_new key h : octets 32 key -> exists r, rc4_new_run key h = Ok r
  /\ forall e iv, slices_run e TRc4 key iv h = Ok (Some r).
Proof.
  intros [L B]. destruct (new_ok key ltac:(lia)) as (s & E & Hwf & _).
  unfold rc4_new_run, rc4_new. cbn [slices_run]. rewrite E. cbn [bind].
  destruct (rc4_run_ok s h Hwf 0) as (rs & P & _ & R). change (prga_iter (N.to_nat 0) s) with s in R.
  rewrite R. cbn [bind]. exists rs. split; reflexivity.
Qed.
Print Assumptions C66_rc4_new.

(** ** C67 *)
(** [RabbitCore::inner_iv_init] ([rabbit/src/lib.rs:266-270]) takes any
    [RabbitKeyOnlyCore], also one that has produced [k] blocks: the stream is then RFC
    4503's IV setup applied to the state after [k] iterations ... *)
Theorem C67_used_core ck key iv k m : octets 16 key -> octets 8 iv ->
  exists s o s1 s2 s3, rabbit_key_only ck key = Ok s /\ rabbit_write ck k s = Ok (o, s1) /\ setup_iv ck iv s1 = Ok s2
  /\ rabbit_write ck m s2
     = Ok (flat_map (fun i => rb_octets 16 (rb_block (rb_iv_setup (rb_int iv) (Nat.iter k rb_next (rb_key_setup (rb_int key)))) i)) (seq 0 m), s3).
Proof.
  intros [Lk Bk] [Li Bi]. destruct (setup_key_ok ck key Lk Bk) as (s & E0 & W0 & S0).
  destruct (rabbit_write_ok ck k s W0) as (s1 & E1 & W1 & S1).
  destruct (setup_iv_ok ck iv s1 Li Bi W1) as (s2 & E2 & W2 & S2).
  destruct (rabbit_write_ok ck m s2 W2) as (s3 & E3 & _ & _).
  exists s. eexists. exists s1, s2, s3. split; [exact E0|]. split; [exact E1|]. split; [exact E2|].
  rewrite E3, S2, S1, S0. reflexivity.
Qed.
Print Assumptions C67_used_core.
(** ... so it is the RFC's stream for (key, IV) when the core is fresh, ... *)
Theorem C67_fresh_core ck key iv m : octets 16 key -> octets 8 iv ->
  exists s s2 s3, rabbit_key_only ck key = Ok s /\ setup_iv ck iv s = Ok s2
  /\ rabbit_write ck m s2 = Ok (flat_map (rb_key_iv_block key iv) (seq 0 m), s3).
Proof.
  intros Hk Hi. destruct (C67_used_core ck key iv 0 m Hk Hi) as (s & o & s1 & s2 & s3 & E0 & E1 & E2 & E3).
  cbn [rabbit_write] in E1. injection E1 as _ <-. exists s, s2, s3. split; [exact E0|]. split; [exact E2|exact E3].
Qed.
Print Assumptions C67_fresh_core.
(** ... and not always when a single block has been taken from it. *)
Theorem C67_used_differs : exists key iv s o s1 s2 o2 s3, octets 16 key /\ octets 8 iv
  /\ rabbit_key_only true key = Ok s /\ rabbit_write true 1 s = Ok (o, s1) /\ setup_iv true iv s1 = Ok s2
  /\ rabbit_write true 1 s2 = Ok (o2, s3) /\ o2 <> rb_key_iv_block key iv 0.
Proof.
  exists (repeat 0 16), (repeat 0 8). do 6 eexists. split; [checks|]. split; [checks|].
  split; [vm_compute; reflexivity|]. split; [vm_compute; reflexivity|]. split; [vm_compute; reflexivity|].
  split; [vm_compute; reflexivity|]. vm_compute. discriminate.
Qed.
Print Assumptions C67_used_differs.

(** ** The hypotheses are satisfiable *)
Example C66_satisfiable : lengths_ok (TXSalsa 10) (List.length ex_key) (List.length ex_nonce24) /\ is_bytes ex_key /\ is_bytes ex_nonce24
  /\ slices_run ex_env (TLegacy 4) ex_key ex_nonce8 [Write 2] = (do rs <- cipher_run ex_env (CChaCha Legacy 4 ex_key ex_nonce8) [Write 2]; Ok (Some rs))
  /\ slices_run ex_env (TLegacy 4) ex_key ex_nonce12 [Write 2] = Ok None
  /\ slices_run ex_env TRc4 [] [] [Write 2] = Ok None /\ exists b, slices_run ex_env TRc4 [1] [] [Write 1] = Ok (Some [Bytes [b]]).
Proof.
  split; [split; reflexivity|]. split; [apply (octets_check 32 ex_key); vm_compute; reflexivity|].
  split; [apply (octets_check 24 ex_nonce24); vm_compute; reflexivity|].
  split; [vm_compute; reflexivity|]. split; [reflexivity|]. split; [reflexivity|]. eexists. vm_compute. reflexivity.
Qed.
Example C67_satisfiable : octets 16 (firstn 16 ex_key) /\ octets 8 ex_nonce8.
Proof. checks. Qed.
