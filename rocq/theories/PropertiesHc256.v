(** Final theorems C40 and C41 (HC-256). *)
From Coq Require Import String.
From Verif Require Import Word Res WordLemmas Hex PropCommon SpecHC256 Hc256 Hc256Proofs Hc256Seq Hc256Fast WrapperProofs.
From Coq Require Import ZArith Lia ZifyBool ZifyNat ZifyN.
Ltac Zify.zify_post_hook ::= Z.div_mod_to_equations.
Local Open Scope string_scope.
Local Open Scope N_scope.
Local Open Scope list_scope.

(** [usize] is 16, 32 or 64 bits wide. *)
Definition usize (usz : N) : Prop := usz = 2 ^ 16 \/ usz = 2 ^ 32 \/ usz = 2 ^ 64.

(** ** C40 *)
Theorem C40_hc256 ck usz key iv k : usize usz -> octets 32 key -> octets 32 iv ->
  exists s s', hc_new ck usz key iv = Ok s
  /\ hc_write ck usz k s = Ok (flat_map (fun n => to_le 4 (hc_word key iv n)) (seq 0 k), s').
Proof.
  intros Hu [Hkl Hkb] [Hil Hib]. destruct (hc_new_ok key iv Hkl Hkb Hil Hib ck usz Hu) as (s & E & H).
  destruct (hc_write_ok ck usz k (hc_init key iv) Hu 0 s H) as (s' & E' & _). exists s, s'. auto.
Qed.
Print Assumptions C40_hc256.
(** The published recurrence for the expanded array. *)
Theorem C40_expansion key iv i : octets 32 key -> octets 32 iv ->
  hc_W key iv (i + 16) =
    (hc_f2 (hc_W key iv (i + 14)) + hc_W key iv (i + 9) + hc_f1 (hc_W key iv (i + 1)) + hc_W key iv i + N.of_nat (i + 16)) mod 2 ^ 32
  /\ (forall k, (k < 8)%nat -> hc_W key iv k = nth k (hc_words key) 0 /\ hc_W key iv (8 + k) = nth k (hc_words iv) 0).
Proof.
  intros [Hkl Hkb] [Hil Hib]. split.
  - rewrite W_rec by assumption. unfold hc_add. change (2 ^ 32) with M32. clear. lia.
  - intros k Hk. rewrite !hc_words_eq by assumption.
    pose proof (words_of_bytes_length 8 key Hkl) as Hl.
    rewrite !W_init by (try assumption; lia). rewrite app_nth1, app_nth2 by lia. rewrite Hl. split; [reflexivity|]. f_equal. lia.
Qed.
Print Assumptions C40_expansion.
(** Without tables: two unbounded sequences p and q start from the expanded array, and
    every keystream word of the program is given by their recurrences.  Step [4096 + n]
    is in round [b]: its first half extends p, its second half q. *)
Theorem C40_recurrence key iv : octets 32 key -> octets 32 iv ->
  exists p q : N -> N,
    (forall k, k < 1024 -> p k = hc_W key iv (N.to_nat k + 512) /\ q k = hc_W key iv (N.to_nat k + 1536))
    /\ (forall n, let b := n / 1024 in
          p (n + 1024) = (p n + p (n + 1014) + hc_g (fun x => q (1024 * b + x)) (p (n + 1021)) (p (n + 1))) mod 2 ^ 32
          /\ q (n + 1024) = (q n + q (n + 1014) + hc_g (fun x => p (1024 * (b + 1) + x)) (q (n + 1021)) (q (n + 1))) mod 2 ^ 32)
    /\ forall ck usz k, usize usz -> exists s o s', hc_new ck usz key iv = Ok s /\ hc_write ck usz k s = Ok (o, s')
       /\ forall w, (w < k)%nat ->
            let i := 4096 + N.of_nat w in let b := i / 2048 in let n := 1024 * b + i mod 1024 in
            firstn 4 (skipn (4 * w) o) =
              to_le 4 (if i mod 2048 <? 1024
                       then N.lxor (hc_h (fun x => q (1024 * b + x)) (p (n + 1012))) (p (n + 1024))
                       else N.lxor (hc_h (fun x => p (1024 * (b + 1) + x)) (q (n + 1012))) (q (n + 1024))).
Proof.
  intros Hk Hi. set (t := hc_tables key iv). exists (pseq t), (qseq t). split; [|split].
  - intros k Hk'. unfold pseq, qseq. destruct (k <? 1024) eqn:E; [|lia]. split; reflexivity.
  - intros n b. assert (Hj : n mod 1024 < 1024) by (apply N.mod_lt; discriminate).
    destruct (p_step t b (n mod 1024) Hj) as [E1 _]. destruct (q_step t b (n mod 1024) Hj) as [E2 _].
    replace (1024 * b + n mod 1024) with n in E1, E2 by (unfold b; lia). unfold hc_add at 1 2 in E1. unfold hc_add at 1 2 in E2.
    rewrite N.add_mod_idemp_l in E1, E2 by discriminate. auto.
  - intros ck usz k Hu. destruct (C40_hc256 ck usz key iv k Hu Hk Hi) as (s & s' & E & E').
    do 3 eexists. split; [exact E|]. split; [exact E'|]. intros w Hw i b n.
    assert (Ew : firstn 4 (skipn (4 * w) (flat_map (fun n => to_le 4 (hc_word key iv n)) (seq 0 k))) = to_le 4 (hc_word key iv w)).
    { replace k with (w + (1 + (k - w - 1)))%nat by lia. rewrite seq_app, flat_map_app, (seq_app 1). cbn [Nat.add seq]. cbn [app flat_map].
      assert (Hl : length (flat_map (fun n => to_le 4 (hc_word key iv n)) (seq 0 w)) = (4 * w)%nat).
      { apply flat_map_len. intros i'. apply to_le_length. }
      rewrite <- Hl, skipn_app, skipn_all, Nat.sub_diag. cbn [skipn app].
      rewrite <- (to_le_length 4 (hc_word key iv w)) at 1. rewrite firstn_app, firstn_all, Nat.sub_diag. cbn [firstn]. apply app_nil_r. }
    rewrite Ew. f_equal. unfold hc_word, hc_init. rewrite hc_run_add by reflexivity.
    rewrite <- (hc_step_mod 4096) by reflexivity. fold i.
    replace (4096 + w)%nat with (N.to_nat i) by (unfold i; lia). fold t.
    assert (Hj : i mod 1024 < 1024) by (apply N.mod_lt; discriminate).
    destruct (i mod 2048 <? 1024) eqn:Eh.
    + destruct (p_step t b (i mod 1024) Hj) as [_ E2]. replace (2048 * b + i mod 1024) with i in E2 by (unfold b; lia). exact E2.
    + destruct (q_step t b (i mod 1024) Hj) as [_ E2]. replace (2048 * b + 1024 + i mod 1024) with i in E2 by (unfold b; lia). exact E2.
Qed.
Print Assumptions C40_recurrence.
(** hc-256/tests/mod.rs: zero key and IV. *)
Example C40_satisfiable : usize (2 ^ 64) /\ octets 32 (repeat 0 32)
  /\ flat_map (fun n => to_le 4 (hc_word (repeat 0 32) (repeat 0 32) n)) (seq 0 4) = hex "5b078985d8f6f30d42c5c02fa6b67951".
Proof.
  split; [right; right; reflexivity|]. split; [checks|].
  assert (E : forall l, flat_map (fun n => to_le 4 (hc_word (repeat 0 32) (repeat 0 32) n)) l = flat_map (to_le 4) (map (hc_word (repeat 0 32) (repeat 0 32)) l)).
  { induction l as [|x l IH]; [reflexivity|]. cbn [flat_map map]. rewrite IH. reflexivity. }
  rewrite E, <- fast_words_ok. vm_compute. reflexivity.
Qed.

(** ** C41 *)
(** A state of the type whose index is in range: what every call preserves. *)
Definition hvalid (s : hc) : Prop :=
  (length (h_p s) = 1024%nat /\ Forall (fun w => w < 2 ^ 32) (h_p s))
  /\ (length (h_q s) = 1024%nat /\ Forall (fun w => w < 2 ^ 32) (h_q s))
  /\ h_idx s < 2048.
Lemma hvalid_rel s : hvalid s -> hrel s ((fun x => nth (N.to_nat x) (h_p s) 0), (fun x => nth (N.to_nat x) (h_q s) 0)) (h_idx s).
Proof.
  intros ((Hp & Hpw) & (Hq & Hqw) & Hi). split; [|split].
  - split; [exact Hp|]. split; [exact Hpw|]. reflexivity.
  - split; [exact Hq|]. split; [exact Hqw|]. reflexivity.
  - rewrite N.mod_small by exact Hi. reflexivity.
Qed.
Lemma hrel_valid s t i : hrel s t i -> hvalid s.
Proof.
  intros ((Hp & Hpw & _) & (Hq & Hqw & _) & Hi). split; [auto|]. split; [auto|]. rewrite Hi. apply N.mod_lt. discriminate.
Qed.
Theorem C41_new ck usz key iv : usize usz -> octets 32 key -> octets 32 iv ->
  exists s, hc_new ck usz key iv = Ok s /\ hvalid s.
Proof.
  intros Hu [Hkl Hkb] [Hil Hib]. destruct (hc_new_ok key iv Hkl Hkb Hil Hib ck usz Hu) as (s & E & H).
  exists s. split; [exact E|]. apply (hrel_valid _ _ _ H).
Qed.
Print Assumptions C41_new.
Theorem C41_no_panic ck usz s : usize usz -> hvalid s ->
  exists w s', gen_word ck usz s = Ok (w, s') /\ w < 2 ^ 32 /\ hvalid s'.
Proof.
  intros Hu H. destruct (gen_word_ok ck usz s _ _ Hu (hvalid_rel s H)) as (s' & E & H'). do 2 eexists. split; [exact E|].
  split; [|apply (hrel_valid _ _ _ H')].
  pose proof (hvalid_rel s H) as (HP & HQ & _). cbn [fst snd] in HP, HQ. unfold hc_step.
  assert (Hh : forall T x, hc_h T x < M32) by (intros; apply hc_add_lt).
  destruct (h_idx s mod 2048 <? 1024); cbn [fst]; (apply xor32_lt; [apply Hh|]); unfold hc_upd; rewrite N.eqb_refl; apply hc_add_lt.
Qed.
Print Assumptions C41_no_panic.
(** Whole runs, and independence of the build profile and of the pointer width. *)
Theorem C41_run ck usz ck' usz' s k : usize usz -> usize usz' -> hvalid s ->
  exists o s', hc_write ck usz k s = Ok (o, s') /\ length o = (4 * k)%nat /\ hvalid s' /\ hc_write ck' usz' k s = Ok (o, s').
Proof.
  intros Hu Hu'. revert s. induction k as [|k IH]; intros s H; cbn [hc_write].
  - exists [], s. auto.
  - assert (Eg : gen_word ck usz s = gen_word ck' usz' s).
    { destruct H as (_ & _ & Hi). unfold gen_word. rewrite !add_ck_ok by lia. cbn [bind].
      assert (Hj : N.land (h_idx s) TABLE_MASK < 1024) by (unfold TABLE_MASK; rewrite land_1023; apply N.mod_lt; discriminate).
      rewrite !(wsub_spec usz), !(wsub_spec usz') by (try assumption; lia).
      assert (Eh : forall l x, h_ ck l x = h_ ck' l x).
      { intros l x. unfold h_. rewrite !land_255.
        assert (forall y, y mod 256 < 256) by (intros y; apply N.mod_lt; discriminate).
        pose proof (H (N.shiftr x 8)). pose proof (H (N.shiftr x 16)). pose proof (H (N.shiftr x 24)).
        rewrite !(add_ck_ok ck), !(add_ck_ok ck') by lia. reflexivity. }
      unfold h1, h2. destruct (h_idx s <? 1024); cbn [h_p h_q].
      - repeat (match goal with |- bind ?m _ = bind ?m _ => destruct m; [cbn [bind h_p h_q]|reflexivity]
                          | |- bind (h_ ck ?l ?x) _ = _ => rewrite (Eh l x) end); reflexivity.
      - repeat (match goal with |- bind ?m _ = bind ?m _ => destruct m; [cbn [bind h_p h_q]|reflexivity]
                          | |- bind (h_ ck ?l ?x) _ = _ => rewrite (Eh l x) end); reflexivity. }
    destruct (C41_no_panic ck usz s Hu H) as (w & s1 & E1 & _ & H1). rewrite <- Eg, E1. cbn [bind].
    destruct (IH s1 H1) as (o & s2 & E2 & Hl & H2 & E2'). rewrite E2, E2'. cbn [bind]. do 2 eexists. split; [reflexivity|].
    split; [rewrite app_length, to_le_length; lia|]. auto.
Qed.
Print Assumptions C41_run.
Example C41_satisfiable : hvalid {| h_p := repeat 0xffffffff 1024; h_q := repeat 0xfffffffe 1024; h_idx := 2047 |}.
Proof.
  split; [|split]; cbn [h_p h_q h_idx]; [split; [apply repeat_length|]..|reflexivity];
  apply Forall_forall; intros x Hx; apply repeat_spec in Hx; subst x; reflexivity.
Qed.
