(** Final theorems C37-C39 (Rabbit). *)
From Coq Require Import String.
From Verif Require Import Word Res WordLemmas Hex PropCommon SpecRabbit Rabbit RabbitProofs WrapperProofs.
From Coq Require Import ZArith Lia ZifyBool ZifyNat ZifyN.
Local Open Scope string_scope.
Local Open Scope N_scope.
Local Open Scope list_scope.

Definition ex_rkey := hex "ACC351DCF162FC3BFE363D2E29132891".
Definition ex_riv := hex "2717F4D21A56EBA6".

(** ** C37 *)
Theorem C37_key_only ck key k : octets 16 key ->
  exists s s', rabbit_key_only ck key = Ok s
  /\ rabbit_write ck k s = Ok (flat_map (rb_key_block key) (seq 0 k), s').
Proof.
  intros [Hl Hb]. destruct (setup_key_ok ck key Hl Hb) as [s [E [Hwf Es]]].
  destruct (rabbit_write_ok ck k s Hwf) as [s' [E' _]]. exists s, s'. split; [exact E|].
  rewrite E'. rewrite Es. reflexivity.
Qed.
Print Assumptions C37_key_only.
Theorem C37_key_iv ck key iv k : octets 16 key -> octets 8 iv ->
  exists s s', rabbit_new ck key iv = Ok s
  /\ rabbit_write ck k s = Ok (flat_map (rb_key_iv_block key iv) (seq 0 k), s').
Proof.
  intros [Hl Hb] [Hli Hbi]. destruct (setup_key_ok ck key Hl Hb) as [s0 [E0 [Hwf0 Es0]]].
  destruct (setup_iv_ok ck iv s0 Hli Hbi Hwf0) as [s [E [Hwf Es]]].
  destruct (rabbit_write_ok ck k s Hwf) as [s' [E' _]]. exists s, s'.
  split; [unfold rabbit_new, rabbit_key_only; rewrite E0; exact E|].
  rewrite E'. rewrite Es, Es0. reflexivity.
Qed.
Print Assumptions C37_key_iv.
(** RFC 4503 appendix A (octet strings written least significant octet first). *)
Example C37_satisfiable : octets 16 ex_rkey /\ octets 8 ex_riv
  /\ flat_map (rb_key_block ex_rkey) (seq 0 3) = hex "9C51E28784C37FE9A127F63EC8F32D3D19FC5485AA53BF96885B40F461CD76F55E4C4D20203BE58A5043DBFB737454E5"
  /\ flat_map (rb_key_iv_block (repeat 0 16) ex_riv) (seq 0 3) = hex "4D1051A123AFB670BF8D8505C8D85A44035BC3ACC667AEAE5B2CF44779F2C896CB5115F034F03D31171CA75F89FCCB9F".
Proof. checks. Qed.

(** ** C38 *)
(** The RFC's constants A7..A0 as one 256-bit integer. *)
Definition A256 : N := 0xD34D34D34D34D34D34D34D34D34D34D34D34D34D34D34D34D34D34D34D34D34D.
Definition int256 (c : list N) : N := fold_right (fun w acc => w + 2 ^ 32 * acc) 0 c.
(** One step of the counters: 256-bit addition of [A256] plus the carry, carry out kept. *)
Theorem C38_odometer ck s : rwf s ->
  exists s', next_state ck s = Ok s'
  /\ int256 (r_c s') + 2 ^ 256 * r_carry s' = int256 (r_c s) + A256 + r_carry s.
Proof.
  intros H. destruct (next_state_ok ck s H) as [s' [E [Hwf Es]]]. exists s'. split; [exact E|].
  change (r_c s') with (rb_c (to_spec s')). change (r_carry s') with (rb_b (to_spec s')). rewrite Es.
  apply (odometer (r_c s) (r_carry s)). apply H.
Qed.
Print Assumptions C38_odometer.
(** Hence no two internal states of one keystream less than 2^256-1 blocks apart are
    equal; already their counters and carry differ. *)
Lemma no_repeat_model ck s i d : rwf s -> (0 < d)%nat -> N.of_nat d < 2 ^ 256 - 1 ->
  exists o1 s1 o2 s2, rabbit_write ck i s = Ok (o1, s1) /\ rabbit_write ck (i + d) s = Ok (o2, s2)
  /\ (r_c s1, r_carry s1) <> (r_c s2, r_carry s2).
Proof.
  intros H Hd Hlt. destruct (rabbit_write_ok ck i s H) as [s1 [E1 [H1 Es1]]].
  destruct (rabbit_write_ok ck (i + d) s H) as [s2 [E2 [H2 Es2]]].
  do 4 eexists. split; [exact E1|]. split; [exact E2|]. intros Eq. injection Eq as Ec Eb.
  apply (no_repeat (to_spec s) i d); [apply H | assumption | exact Hlt |].
  rewrite <- Es1, <- Es2. unfold odo, to_spec. cbn [rb_c rb_b]. rewrite Ec, Eb. reflexivity.
Qed.
Theorem C38_no_repeat ck key iv i d : octets 16 key -> octets 8 iv -> (0 < d)%nat -> N.of_nat d < 2 ^ 256 - 1 ->
  exists s o1 s1 o2 s2, rabbit_new ck key iv = Ok s
  /\ rabbit_write ck i s = Ok (o1, s1) /\ rabbit_write ck (i + d) s = Ok (o2, s2) /\ s1 <> s2.
Proof.
  intros [Hl Hb] [Hli Hbi] Hd Hlt. destruct (setup_key_ok ck key Hl Hb) as [s0 [E0 [Hwf0 Es0]]].
  destruct (setup_iv_ok ck iv s0 Hli Hbi Hwf0) as [s [E [Hwf Es]]].
  destruct (no_repeat_model ck s i d Hwf Hd Hlt) as (o1 & s1 & o2 & s2 & E1 & E2 & Hne).
  exists s, o1, s1, o2, s2. split; [unfold rabbit_new, rabbit_key_only; rewrite E0; exact E|].
  split; [exact E1|]. split; [exact E2|]. intros ->. apply Hne. reflexivity.
Qed.
Print Assumptions C38_no_repeat.
Theorem C38_no_repeat_key_only ck key i d : octets 16 key -> (0 < d)%nat -> N.of_nat d < 2 ^ 256 - 1 ->
  exists s o1 s1 o2 s2, rabbit_key_only ck key = Ok s
  /\ rabbit_write ck i s = Ok (o1, s1) /\ rabbit_write ck (i + d) s = Ok (o2, s2) /\ s1 <> s2.
Proof.
  intros [Hl Hb] Hd Hlt. destruct (setup_key_ok ck key Hl Hb) as [s [E [Hwf Es]]].
  destruct (no_repeat_model ck s i d Hwf Hd Hlt) as (o1 & s1 & o2 & s2 & E1 & E2 & Hne).
  exists s, o1, s1, o2, s2. split; [exact E|].
  split; [exact E1|]. split; [exact E2|]. intros ->. apply Hne. reflexivity.
Qed.
Print Assumptions C38_no_repeat_key_only.
(** A state whose carry is set takes part in the end-around carry. *)
Example C38_satisfiable :
  let s := {| r_x := repeat 7 8; r_c := repeat 0xffffffff 8; r_carry := 1 |} in
  rwf s /\ (match next_state true s with Ok s' => r_carry s' | Panic => 9 end) = 1.
Proof.
  cbv zeta. split; [|vm_compute; reflexivity]. unfold rwf. cbn [r_x r_c r_carry].
  split; [reflexivity|]. split; [repeat constructor|]. split; [reflexivity|]. split; [repeat constructor | discriminate].
Qed.

(** ** C39 *)
(** With or without overflow checks: never a panic, the same values, and the carry is a bit. *)
Theorem C39_no_panic ck key iv k : octets 16 key -> octets 8 iv ->
  exists sk s out s', rabbit_key_only ck key = Ok sk /\ r_carry sk <= 1
  /\ rabbit_new ck key iv = Ok s /\ r_carry s <= 1
  /\ rabbit_write ck k s = Ok (out, s') /\ r_carry s' <= 1
  /\ List.length out = (16 * k)%nat /\ Forall (fun b => b < 256) out
  /\ List.length (r_x s') = 8%nat /\ List.length (r_c s') = 8%nat
  /\ Forall (fun w => w < 2 ^ 32) (r_x s') /\ Forall (fun w => w < 2 ^ 32) (r_c s')
  /\ exists out2 s2, rabbit_write ck k sk = Ok (out2, s2) /\ r_carry s2 <= 1.
Proof.
  intros [Hl Hb] [Hli Hbi]. destruct (setup_key_ok ck key Hl Hb) as [s0 [E0 [Hwf0 Es0]]].
  destruct (setup_iv_ok ck iv s0 Hli Hbi Hwf0) as [s [E [Hwf Es]]].
  destruct (rabbit_write_ok ck k s Hwf) as [s' [E' [Hwf' _]]].
  destruct (rabbit_write_ok ck k s0 Hwf0) as [s2 [E2 [Hwf2 _]]].
  exists s0, s. do 2 eexists. split; [exact E0|]. split; [apply Hwf0|].
  split; [unfold rabbit_new, rabbit_key_only; rewrite E0; exact E|]. split; [apply Hwf|].
  split; [exact E'|]. split; [apply Hwf'|]. split.
  { apply flat_map_len. intros i. unfold rb_octets. rewrite map_length, seq_length. reflexivity. }
  split.
  { apply Forall_forall. intros b Hin. apply in_flat_map in Hin as [i [_ Hi]].
    unfold rb_octets in Hi. apply in_map_iff in Hi as [j [<- _]]. apply N.mod_lt. discriminate. }
  split; [apply Hwf'|]. split; [apply Hwf'|]. split; [apply Hwf'|]. split; [apply Hwf'|].
  do 2 eexists. split; [exact E2 | apply Hwf2].
Qed.
Print Assumptions C39_no_panic.
Theorem C39_profiles_agree key iv k : octets 16 key -> octets 8 iv ->
  rabbit_key_only true key = rabbit_key_only false key
  /\ rabbit_new true key iv = rabbit_new false key iv
  /\ forall s, rwf s -> rabbit_write true k s = rabbit_write false k s.
Proof.
  intros [Hl Hb] [Hli Hbi].
  assert (Inj : forall a b, to_spec a = to_spec b -> a = b).
  { intros [xa ca ba] [xb cb bb] H. unfold to_spec in H. cbn in H. injection H as -> -> ->. reflexivity. }
  destruct (setup_key_ok true key Hl Hb) as [s1 [E1 [Hwf1 Es1]]].
  destruct (setup_key_ok false key Hl Hb) as [s2 [E2 [Hwf2 Es2]]].
  assert (s1 = s2) by (apply Inj; congruence). subst s2.
  split; [unfold rabbit_key_only; congruence|]. split.
  - destruct (setup_iv_ok true iv s1 Hli Hbi Hwf1) as [t1 [F1 [_ Ft1]]].
    destruct (setup_iv_ok false iv s1 Hli Hbi Hwf1) as [t2 [F2 [_ Ft2]]].
    unfold rabbit_new, rabbit_key_only. rewrite E1, E2. cbn [bind]. rewrite F1, F2. f_equal. apply Inj. congruence.
  - intros s Hs. destruct (rabbit_write_ok true k s Hs) as [t1 [F1 [_ Ft1]]].
    destruct (rabbit_write_ok false k s Hs) as [t2 [F2 [_ Ft2]]]. rewrite F1, F2. do 2 f_equal. apply Inj. congruence.
Qed.
Print Assumptions C39_profiles_agree.
Example C39_satisfiable : octets 16 ex_rkey /\ octets 8 ex_riv
  /\ (match rabbit_new true ex_rkey ex_riv with Ok s => r_carry s | Panic => 9 end) <= 1.
Proof. checks. Qed.
