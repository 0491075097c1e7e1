(** Final theorems C13 to C20: every public cipher type as a stream cipher.

    [cipher] enumerates the types with their key material, [cipher_run e c h] is the
    model: construct the cipher in environment [e] (backend, CPU, [usize], overflow
    checks), then make the calls [h].  [cipher_ks c] is the specified keystream. *)
From Coq Require Import String.
From Verif Require Import Word Res WordLemmas Hex PropCommon SpecStream SpecChaCha SpecSalsa ChaChaCore ChaChaDispatch Ciphers
  CipherWrapper WrapperProofs CiphersProofs StreamLemmas Rc4 Rc4Proofs.
From Coq Require Import ZArith Lia ZifyBool ZifyNat ZifyN.
Ltac Zify.zify_post_hook ::= Z.div_mod_to_equations.
Local Open Scope string_scope.
Local Open Scope N_scope.
Local Open Scope list_scope.

(** Byte-wise XOR of [m] with bytes [p], [p+1], ... of the keystream of [c]. *)
Definition xored (c : cipher) (p : N) (m : list N) : list N :=
  map (fun x => N.lxor (fst x) (snd x)) (combine m (map (fun i => cipher_ks c (p + N.of_nat i)) (seq 0 (List.length m)))).
(** Last usable keystream position, in bytes ([None]: no limit). *)
Definition last_byte (c : cipher) : option N :=
  match c with
  | CChaCha Ietf _ _ _ | CXChaCha _ _ _ => Some (64 * (2 ^ 32 - 1))
  | CChaCha Legacy _ _ _ | CSalsa _ _ _ | CXSalsa _ _ _ => Some (64 * (2 ^ 64 - 1))
  | _ => None
  end.
Definition fits (c : cipher) (p : N) : Prop := match last_byte c with None => True | Some L => p <= L end.
Definition short (e : env) (d : list N) : Prop := N.of_nat (List.length d) < 2 ^ e_usz e.

Lemma fits_within c p : fits c p -> within (cipher_lim c) p.
Proof.
  unfold fits. intros H.
  destruct c as [[] | | | | | | | ]; cbn [last_byte cipher_lim within l_blocks l_bs] in *; try exact I;
    (split; [reflexivity|]; split; [reflexivity | exact H]).
Qed.
Lemma last_lim c l : cipher_lim c = Some l -> last_byte c = Some (l_usable l) /\ 1 < l_blocks l /\ l_bs l = 64.
Proof.
  intros H. destruct c as [[] | | | | | | | ]; cbn [cipher_lim] in H; try discriminate H; injection H as <-;
    cbn [last_byte l_usable l_bs l_blocks]; (split; [reflexivity|split; reflexivity]).
Qed.
Lemma last_none c : last_byte c = None -> cipher_lim c = None.
Proof. intros H. destruct c as [[] | | | | | | | ]; cbn [last_byte] in H; try discriminate H; reflexivity. Qed.
Lemma last_some c L : last_byte c = Some L -> exists l, cipher_lim c = Some l /\ L = l_usable l.
Proof.
  intros H. destruct c as [[] | | | | | | | ]; cbn [last_byte] in H; try discriminate H; injection H as <-;
    cbn [cipher_lim]; eexists; (split; [reflexivity|reflexivity]).
Qed.
Lemma short_calls e ds : Forall (short e) ds -> Forall (call_ok e) (map Apply ds).
Proof. intros H. apply Forall_map. exact H. Qed.

(** ** C13 *)
Theorem C13_chunking e c chunks : env_ok e -> cipher_ok c -> Forall (short e) chunks ->
  fits c (N.of_nat (List.length (concat chunks))) ->
  exists outs, cipher_run e c (map Apply chunks) = Ok (map Bytes outs)
  /\ map (@List.length N) outs = map (@List.length N) chunks
  /\ concat outs = xored c 0 (concat chunks).
Proof.
  intros He Hc Hs Hf. rewrite cipher_run_ok by (try assumption; apply short_calls; assumption).
  destruct (spec_chunks (cipher_ks c) (cipher_lim c) (cipher_strict e c) chunks 0 (fits_within c _ Hf)) as (outs & E & El & Ec).
  rewrite E. exists outs. split; [reflexivity|]. split; assumption.
Qed.
Print Assumptions C13_chunking.
(** The split is unobservable, and so are build and CPU. *)
Theorem C13_split_unobservable e1 e2 c ch1 ch2 o1 o2 : env_ok e1 -> env_ok e2 -> cipher_ok c ->
  Forall (short e1) ch1 -> Forall (short e2) ch2 -> concat ch1 = concat ch2 ->
  fits c (N.of_nat (List.length (concat ch1))) ->
  cipher_run e1 c (map Apply ch1) = Ok (map Bytes o1) -> cipher_run e2 c (map Apply ch2) = Ok (map Bytes o2) ->
  concat o1 = concat o2.
Proof.
  intros He1 He2 Hc H1 H2 E Hf R1 R2.
  destruct (C13_chunking e1 c ch1 He1 Hc H1 Hf) as (p1 & Q1 & _ & C1).
  rewrite E in Hf. destruct (C13_chunking e2 c ch2 He2 Hc H2 Hf) as (p2 & Q2 & _ & C2).
  assert (Inj : forall a b, map Bytes a = map Bytes b -> a = b).
  { induction a as [|x a IH]; intros [|y b] H; cbn in H; try discriminate; [reflexivity|]. injection H as -> H. f_equal. apply IH; exact H. }
  rewrite Q1 in R1. rewrite Q2 in R2. injection R1 as R1. injection R2 as R2. apply Inj in R1, R2. subst. congruence.
Qed.
Print Assumptions C13_split_unobservable.

(** ** C14 *)
Theorem C14_decrypt e1 e2 c m ch1 ch2 : env_ok e1 -> env_ok e2 -> cipher_ok c ->
  Forall (short e1) ch1 -> Forall (short e2) ch2 -> fits c (N.of_nat (List.length m)) ->
  concat ch1 = m ->
  exists o1, cipher_run e1 c (map Apply ch1) = Ok (map Bytes o1) /\
  (concat ch2 = concat o1 ->
   exists o2, cipher_run e2 c (map Apply ch2) = Ok (map Bytes o2) /\ concat o2 = m).
Proof.
  intros He1 He2 Hc H1 H2 Hf <-.
  destruct (C13_chunking e1 c ch1 He1 Hc H1 Hf) as (o1 & Q1 & _ & C1). exists o1. split; [exact Q1|].
  intros E. assert (El : List.length (concat ch2) = List.length (concat ch1)).
  { rewrite E, C1. apply ks_xor_length. }
  rewrite <- El in Hf. destruct (C13_chunking e2 c ch2 He2 Hc H2 Hf) as (o2 & Q2 & _ & C2).
  exists o2. split; [exact Q2|]. rewrite C2, E, C1. apply (ks_xor_twice (cipher_ks c) 0).
Qed.
Print Assumptions C14_decrypt.

(** ** C15 *)
Lemma run_cong e c h o1 o2 h' : env_ok e -> cipher_ok c ->
  Forall (call_ok e) (h ++ o1 :: h') -> Forall (call_ok e) (h ++ o2 :: h') ->
  (forall p, step_spec (cipher_ks c) (cipher_lim c) (cipher_strict e c) p o1 = step_spec (cipher_ks c) (cipher_lim c) (cipher_strict e c) p o2) ->
  cipher_run e c (h ++ o1 :: h') = cipher_run e c (h ++ o2 :: h').
Proof.
  intros He Hc H1 H2 E. rewrite !cipher_run_ok by assumption. rewrite !run_spec_app.
  destruct (run_spec _ _ _ 0 h) as [[rs p]|]; [|reflexivity]. cbn [run_spec]. rewrite E. reflexivity.
Qed.
(** After any history [h] and before any history [h']. *)
Theorem C15_write_is_apply_zeros e c h n h' : env_ok e -> cipher_ok c ->
  Forall (call_ok e) h -> Forall (call_ok e) h' -> N.of_nat n < 2 ^ e_usz e ->
  cipher_run e c (h ++ Write n :: h') = cipher_run e c (h ++ Apply (repeat 0 n) :: h').
Proof.
  intros He Hc Hh Hh' Hn. apply run_cong; try assumption.
  - apply Forall_app. split; [assumption|]. constructor; [exact Hn|assumption].
  - apply Forall_app. split; [assumption|]. constructor; [cbn [call_ok]; rewrite repeat_length; exact Hn|assumption].
  - intros p. cbn [step_spec]. cbv zeta. rewrite repeat_length, ks_xor_zeros. reflexivity.
Qed.
Print Assumptions C15_write_is_apply_zeros.
Theorem C15_b2b_is_apply e c h d h' : env_ok e -> cipher_ok c ->
  Forall (call_ok e) h -> Forall (call_ok e) h' -> short e d ->
  cipher_run e c (h ++ ApplyB2b d (List.length d) :: h') = cipher_run e c (h ++ Apply d :: h').
Proof.
  intros He Hc Hh Hh' Hn. apply run_cong; try assumption.
  - apply Forall_app. split; [assumption|]. constructor; [exact Hn|assumption].
  - apply Forall_app. split; [assumption|]. constructor; [exact Hn|assumption].
  - intros p. cbn [step_spec]. cbv zeta. rewrite Nat.eqb_refl. reflexivity.
Qed.
Print Assumptions C15_b2b_is_apply.
(** The answers without the call number [k], put back with answer [Err] there. *)
Definition with_err (k : nat) (m : Res (list ret)) : Res (list ret) :=
  do rs <- m; Ok (firstn k rs ++ Err :: skipn k rs).
Lemma run_err e c h o h' : env_ok e -> cipher_ok c -> Forall (call_ok e) (h ++ o :: h') ->
  (forall rs p, run_spec (cipher_ks c) (cipher_lim c) (cipher_strict e c) 0 h = Some (rs, p) ->
     step_spec (cipher_ks c) (cipher_lim c) (cipher_strict e c) p o = Some (Err, p)) ->
  cipher_run e c (h ++ o :: h') = with_err (List.length h) (cipher_run e c (h ++ h')).
Proof.
  intros He Hc Hh E.
  assert (Hh2 : Forall (call_ok e) (h ++ h')).
  { apply Forall_app in Hh. destruct Hh as [A B]. inversion B; subst. apply Forall_app. split; assumption. }
  rewrite !cipher_run_ok by assumption. rewrite !run_spec_app. cbn [run_spec].
  destruct (run_spec _ _ _ 0 h) as [[rs p]|] eqn:Eh; [|reflexivity].
  rewrite (E rs p eq_refl). pose proof (run_spec_length _ _ _ _ _ _ _ Eh) as Hl.
  destruct (run_spec _ _ _ p h') as [[rs2 p2]|]; [|reflexivity]. cbn [expect with_err bind].
  rewrite <- Hl, firstn_app, firstn_all, Nat.sub_diag, firstn_O, app_nil_r, skipn_app, skipn_all, Nat.sub_diag.
  reflexivity.
Qed.
Theorem C15_b2b_length_mismatch e c h d m h' : env_ok e -> cipher_ok c ->
  Forall (call_ok e) h -> Forall (call_ok e) h' -> short e d -> List.length d <> m ->
  cipher_run e c (h ++ ApplyB2b d m :: h') = with_err (List.length h) (cipher_run e c (h ++ h')).
Proof.
  intros He Hc Hh Hh' Hn Hm. apply run_err; try assumption.
  - apply Forall_app. split; [assumption|]. constructor; [exact Hn|assumption].
  - intros rs p _. cbn [step_spec]. cbv zeta. apply Nat.eqb_neq in Hm. rewrite Hm. reflexivity.
Qed.
Print Assumptions C15_b2b_length_mismatch.
(** Same internal state, too: for the wrapper around any core that returns whole blocks,
    and for RC4. *)
Theorem C15_same_state {S} (C : score S) w n : (0 < sc_bs C)%nat ->
  (forall k st o st', sc_gen C k st = Ok (o, st') -> List.length o = (sc_bs C * k)%nat) ->
  List.length (w_buf w) = sc_bs C ->
  try_write C w n = try_apply C w (repeat 0 n) /\ apply_b2b C w (repeat 0 n) n = try_apply C w (repeat 0 n).
Proof.
  intros Hbs Hgen Hbuf. split; [|unfold apply_b2b; rewrite repeat_length, Nat.eqb_refl; reflexivity].
  unfold try_write, try_apply, unchecked_apply. rewrite repeat_length.
  destruct (check_remaining C w n); [|reflexivity].
  destruct (unchecked_write C w n) as [[o w']|] eqn:E; [|reflexivity]. cbn [bind].
  assert (Hl : List.length o = n).
  { revert E. unfold unchecked_write, read_cached, buf_rem. cbv zeta.
    set (m := Nat.min (sc_bs C - w_cur w) n).
    assert (Hh : List.length (slice (w_buf w) (w_cur w) m) = m).
    { unfold slice. rewrite firstn_length, skipn_length, Hbuf. lia. }
    rewrite Hh. set (r := (n - m)%nat).
    destruct (sc_gen C (r / sc_bs C) (w_core w)) as [[body st]|] eqn:Eg; [|discriminate]. cbn [bind].
    apply Hgen in Eg. unfold write_block. pose proof (Nat.div_mod r (sc_bs C) ltac:(lia)) as Hdm.
    destruct (Nat.eqb_spec (r mod sc_bs C) 0) as [E0|E0]; cbn [bind].
    - intros H. injection H as <- <-. rewrite app_nil_r, app_length, Hh, Eg. unfold r in *. lia.
    - destruct (assert_ (r mod sc_bs C <? sc_bs C)%nat); [|discriminate]. cbn [bind].
      destruct (sc_gen C 1 st) as [[blk st']|] eqn:Eb; [|discriminate]. cbn [bind].
      apply Hgen in Eb. intros H. injection H as <- <-.
      pose proof (Nat.mod_upper_bound r (sc_bs C) ltac:(lia)).
      rewrite !app_length, Hh, Eg, firstn_length, Eb. unfold r in *. lia. }
  f_equal. f_equal. f_equal. rewrite <- Hl. symmetry. apply xorb_zeros.
Qed.
Print Assumptions C15_same_state.

(** ** C16 *)
(** After any history without panic: seek to [p], ask the position, use [d] bytes, ask
    again, in an integer type that can hold the end of the block ([SeekNum] multiplies
    the block number by the block size). *)
Theorem C16_seek e c L h rs p d t : env_ok e -> cipher_ok c -> last_byte c = Some L ->
  Forall (call_ok e) h -> short e d -> cipher_run e c h = Ok rs ->
  p + N.of_nat (List.length d) <= L -> (p + N.of_nat (List.length d) + 63) / 64 * 64 < t ->
  cipher_run e c (h ++ [Seek p; CurPos t; Apply d; CurPos t])
  = Ok (rs ++ [Done; Pos p; Bytes (xored c p d); Pos (p + N.of_nat (List.length d))]).
Proof.
  intros He Hc HL Hh Hd Hr Hp Ht. destruct (last_some c L HL) as (l & El & ->).
  destruct (last_lim c l El) as (_ & Hb & H64).
  assert (Hcalls : Forall (call_ok e) (h ++ [Seek p; CurPos t; Apply d; CurPos t])).
  { apply Forall_app. split; [assumption|]. repeat constructor; exact Hd. }
  rewrite cipher_run_ok in Hr by assumption. rewrite cipher_run_ok by assumption. rewrite run_spec_app.
  destruct (run_spec _ _ _ 0 h) as [[rs0 p0]|]; [|discriminate]. injection Hr as ->.
  rewrite El. set (n := N.of_nat (List.length d)) in *.
  assert (Hu : l_usable l = 64 * (l_blocks l - 1)) by (unfold l_usable; rewrite H64; reflexivity).
  assert (Hper : l_period l = 64 * l_blocks l) by (unfold l_period; rewrite H64; reflexivity).
  cbn [run_spec]. unfold step_spec at 1. rewrite H64.
  destruct (N.ltb_spec (p / 64) (l_blocks l)); [|lia].
  destruct (N.ltb_spec (l_usable l) p); [lia|]. rewrite andb_false_r.
  unfold step_spec at 1. cbv zeta. rewrite H64, Hper. rewrite (N.mod_small p) by lia.
  destruct (N.leb_spec p (l_usable l)); [|lia]. cbn [andb].
  destruct (N.ltb_spec ((p + 64 - 1) / 64 * 64) t); [|lia].
  unfold step_spec at 1. cbv zeta. fold n. rewrite granted_iff by (cbn [within]; lia).
  destruct (N.leb_spec (p + n) (l_usable l)); [|lia].
  unfold step_spec at 1. cbv zeta. rewrite H64, Hper. rewrite (N.mod_small (p + n)) by lia.
  destruct (N.leb_spec (p + n) (l_usable l)); [|lia]. cbn [andb].
  destruct (N.ltb_spec ((p + n + 64 - 1) / 64 * 64) t); [|lia].
  reflexivity.
Qed.
Print Assumptions C16_seek.
(** [try_seek] fails exactly when the block number does not fit the counter (and then
    changes nothing: [C18_failure_is_noop]). *)
Theorem C16_seek_answer e c L h rs p : env_ok e -> cipher_ok c -> last_byte c = Some L ->
  Forall (call_ok e) h -> cipher_run e c h = Ok rs -> (cipher_strict e c = true -> p <= L) ->
  cipher_run e c (h ++ [Seek p])
  = Ok (rs ++ [if p / 64 <? match c with CChaCha Ietf _ _ _ | CXChaCha _ _ _ => 2 ^ 32 | _ => 2 ^ 64 end then Done else Err]).
Proof.
  intros He Hc HL Hh Hr Hp. destruct (last_some c L HL) as (l & El & ->).
  destruct (last_lim c l El) as (_ & Hb & H64).
  assert (Hcalls : Forall (call_ok e) (h ++ [Seek p])) by (apply Forall_app; split; [assumption|repeat constructor]).
  rewrite cipher_run_ok in Hr by assumption. rewrite cipher_run_ok by assumption. rewrite run_spec_app.
  destruct (run_spec _ _ _ 0 h) as [[rs0 p0]|]; [|discriminate]. injection Hr as ->.
  rewrite El. cbn [run_spec step_spec]. rewrite H64.
  replace (match c with CChaCha Ietf _ _ _ | CXChaCha _ _ _ => 2 ^ 32 | _ => 2 ^ 64 end) with (l_blocks l)
    by (destruct c as [[] | | | | | | | ]; cbn [cipher_lim] in El; try discriminate El; injection El as <-; reflexivity).
  destruct (p / 64 <? l_blocks l); [|reflexivity].
  destruct (cipher_strict e c); [|reflexivity]. specialize (Hp eq_refl). destruct (N.ltb_spec (l_usable l) p); [lia|]. reflexivity.
Qed.
Print Assumptions C16_seek_answer.

(** ** C17 *)
Theorem C17_history e c h : env_ok e -> cipher_ok c -> Forall (call_ok e) h ->
  cipher_run e c h =
  match run_spec (cipher_ks c) (cipher_lim c) (cipher_strict e c) 0 h with Some (rs, _) => Ok rs | None => Panic end.
Proof. intros He Hc Hh. apply cipher_run_ok; assumption. Qed.
Print Assumptions C17_history.
Lemma no_panic_spec ks lim strict h : strict = false -> forall p, run_spec ks lim strict p h <> None.
Proof.
  intros ->. induction h as [|o h IH]; intros p; cbn [run_spec]; [discriminate|].
  assert (Hs : exists r p', step_spec ks lim false p o = Some (r, p')).
  { unfold step_spec. cbn [andb]. destruct lim as [l|]; destruct o as [d | d m | n | q | t];
    repeat match goal with |- context [if ?b then _ else _] => destruct b end; eauto. }
  destruct Hs as (r & p' & ->). specialize (IH p'). destruct (run_spec ks lim false p' h) as [[? ?]|]; [discriminate|contradiction].
Qed.
(** No call ever panics, except Salsa with overflow checks seeking into its last block. *)
Theorem C17_no_panic e c h : env_ok e -> cipher_ok c -> Forall (call_ok e) h ->
  (match c with CSalsa _ _ _ | CXSalsa _ _ _ => e_ck e = false \/ Forall (fun o => match o with Seek p => p <= 64 * (2 ^ 64 - 1) \/ 2 ^ 70 <= p | _ => True end) h
   | _ => True end) ->
  exists rs, cipher_run e c h = Ok rs /\ List.length rs = List.length h.
Proof.
  intros He Hc Hh Hs. rewrite cipher_run_ok by assumption.
  assert (Hn : forall p, run_spec (cipher_ks c) (cipher_lim c) (cipher_strict e c) p h <> None).
  { destruct (cipher_strict e c) eqn:Est; [|intros; apply no_panic_spec; reflexivity].
    assert (Hseek : cipher_lim c = Some {| l_bs := 64; l_blocks := 2 ^ 64 |}
       /\ Forall (fun o => match o with Seek p => p <= 64 * (2 ^ 64 - 1) \/ 2 ^ 70 <= p | _ => True end) h).
    { destruct c; cbn [cipher_strict] in Est; try discriminate; (split; [reflexivity|]); destruct Hs as [Hs|Hs]; congruence || exact Hs. }
    destruct Hseek as [-> Hq]. clear -Hq. induction h as [|o h IH]; intros p; cbn [run_spec]; [discriminate|].
    inversion Hq as [|? ? Ho Hq']; subst.
    assert (E : exists r p', step_spec (cipher_ks c) (Some {| l_bs := 64; l_blocks := 2 ^ 64 |}) true p o = Some (r, p')).
    { unfold step_spec. destruct o as [d | d m | n | q | t].
      1-3,5: repeat match goal with |- context [if ?b then _ else _] => destruct b end; eauto.
      cbn [l_bs l_blocks]. unfold l_usable. cbn [l_bs l_blocks andb].
      change (2 ^ 64) with M64 in *. change (2 ^ 70) with (64 * M64) in Ho.
      destruct (N.ltb_spec (q / 64) M64); [|eauto]. destruct (N.ltb_spec (64 * (M64 - 1)) q); [lia|eauto]. }
    destruct E as (r & p' & ->). specialize (IH Hq' p'). destruct (run_spec _ _ _ p' h) as [[? ?]|]; [discriminate|contradiction]. }
  specialize (Hn 0). destruct (run_spec _ _ _ 0 h) as [[rs p']|] eqn:E; [|contradiction].
  exists rs. split; [reflexivity|]. eapply run_spec_length. exact E.
Qed.
Print Assumptions C17_no_panic.

(** ** C18 *)
(** The position is the sum of the lengths of the answers since the last successful
    seek, from the target of that seek: [track]. *)
Theorem C18_limit e c h rs d : env_ok e -> cipher_ok c -> Forall (call_ok e) h -> short e d ->
  cipher_run e c h = Ok rs ->
  let p := track 0 h rs in let n := N.of_nat (List.length d) in
  match last_byte c with
  | None => cipher_run e c (h ++ [Apply d]) = Ok (rs ++ [Bytes (xored c p d)])
  | Some L => p <= L ->
      cipher_run e c (h ++ [Apply d]) = Ok (rs ++ [if p + n <=? L then Bytes (xored c p d) else Err])
      /\ cipher_run e c (h ++ [Write (List.length d)])
         = Ok (rs ++ [if p + n <=? L then Bytes (map (fun i => cipher_ks c (p + N.of_nat i)) (seq 0 (List.length d))) else Err])
  end.
Proof.
  intros He Hc Hh Hd Hr p n.
  assert (Hca : Forall (call_ok e) (h ++ [Apply d])) by (apply Forall_app; split; [assumption|repeat constructor; exact Hd]).
  assert (Hcw : Forall (call_ok e) (h ++ [Write (List.length d)])) by (apply Forall_app; split; [assumption|repeat constructor; exact Hd]).
  rewrite cipher_run_ok in Hr by assumption.
  destruct (run_spec _ _ _ 0 h) as [[rs0 p0]|] eqn:E; [|discriminate]. injection Hr as ->.
  pose proof (track_spec _ _ _ _ _ _ _ E) as Et. fold p in Et. rewrite <- Et in E. clear Et.
  rewrite !cipher_run_ok by assumption. rewrite !run_spec_app, E. cbn [run_spec].
  destruct (last_byte c) as [L|] eqn:EL.
  - intros Hp. destruct (last_some c L EL) as (l & El & ->). destruct (last_lim c l El) as (_ & Hb & H64).
    cbn [step_spec]. cbv zeta. rewrite El. rewrite granted_iff by (cbn [within]; lia). fold n.
    destruct (p + n <=? l_usable l); (split; reflexivity).
  - rewrite (last_none c EL). reflexivity.
Qed.
Print Assumptions C18_limit.
(** A call that answered [Err] could as well not have been made. *)
Theorem C18_failure_is_noop e c h o h' rs1 rs2 : env_ok e -> cipher_ok c -> Forall (call_ok e) (h ++ o :: h') ->
  cipher_run e c (h ++ o :: h') = Ok (rs1 ++ Err :: rs2) -> List.length rs1 = List.length h ->
  cipher_run e c (h ++ h') = Ok (rs1 ++ rs2).
Proof.
  intros He Hc Hh Hr Hl.
  assert (Hh2 : Forall (call_ok e) (h ++ h')).
  { apply Forall_app in Hh. destruct Hh as [A B]. inversion B; subst. apply Forall_app. split; assumption. }
  rewrite cipher_run_ok in Hr by assumption. rewrite cipher_run_ok by assumption. rewrite run_spec_app in *.
  destruct (run_spec _ _ _ 0 h) as [[rs p]|] eqn:Eh; [|discriminate].
  pose proof (run_spec_length _ _ _ _ _ _ _ Eh) as Hl'. cbn [run_spec] in Hr.
  destruct (step_spec _ _ _ p o) as [[r p1]|] eqn:Es; [|discriminate].
  destruct (run_spec _ _ _ p1 h') as [[rs' p2]|] eqn:E'; [|discriminate]. cbn [expect] in Hr. injection Hr as Hr.
  assert (Heq : rs = rs1 /\ r :: rs' = Err :: rs2).
  { clear -Hr Hl Hl'. rewrite <- Hl in Hl'. clear Hl. revert rs1 Hl' Hr. induction rs as [|a rs IH]; intros [|b rs1] Hl Hr; cbn in *; try discriminate; [auto|].
    injection Hr as -> Hr. destruct (IH rs1 ltac:(congruence) Hr) as [-> ?]. auto. }
  destruct Heq as [-> Heq]. injection Heq as -> ->.
  pose proof (moved_spec _ _ _ _ _ _ _ Es) as Hm. cbn [moved] in Hm. subst p1. rewrite E'. reflexivity.
Qed.
Print Assumptions C18_failure_is_noop.

(** ** C19 *)
(** Keystream positions used by each call, and the outputs explained by them. *)
Fixpoint used (p : N) (rs : list ret) : list N :=
  match rs with
  | [] => []
  | Bytes l :: rs' => map (fun i => p + N.of_nat i) (seq 0 (List.length l)) ++ used (p + N.of_nat (List.length l)) rs'
  | _ :: rs' => used p rs'
  end.
Fixpoint explained (c : cipher) (p : N) (h : list op) (rs : list ret) : Prop :=
  match h, rs with
  | o :: h', r :: rs' =>
      match o, r with
      | Apply d, Bytes l | ApplyB2b d _, Bytes l => l = xored c p d
      | Write n, Bytes l => l = xored c p (repeat 0 n)
      | _, Bytes _ => False
      | _, _ => True
      end /\ explained c (moved p o r) h' rs'
  | [], [] => True
  | _, _ => False
  end.
Definition no_seek (o : op) : Prop := match o with Seek _ => False | _ => True end.
Definition total (rs : list ret) : nat := list_sum (map (fun r => match r with Bytes l => List.length l | _ => 0%nat end) rs).

Lemma used_total rs : forall p, used p rs = map (fun i => p + N.of_nat i) (seq 0 (total rs)).
Proof.
  induction rs as [|r rs IH]; intros p; [reflexivity|].
  destruct r as [l | | q | ]; cbn [used]; rewrite ?IH; try reflexivity.
  unfold total. cbn [map list_sum fold_right]. fold (list_sum (map (fun r => match r with Bytes l => List.length l | _ => 0%nat end) rs)).
  fold (total rs). rewrite seq_app, map_app. f_equal. cbn [Nat.add].
  generalize (total rs) as m, (List.length l) as k. clear. intros m k.
  replace (seq k m) with (map (fun i => k + i)%nat (seq 0 m)).
  - rewrite map_map. apply map_ext. intros i. lia.
  - rewrite seq_map_add, Nat.add_0_r. reflexivity.
Qed.
Lemma explain_step c lim strict p o r p' : step_spec (cipher_ks c) lim strict p o = Some (r, p') ->
  match o, r with
  | Apply d, Bytes l | ApplyB2b d _, Bytes l => l = xored c p d
  | Write n, Bytes l => l = xored c p (repeat 0 n)
  | _, Bytes _ => False
  | _, _ => True
  end.
Proof.
  unfold step_spec. destruct o as [d | d m | n | q | t]; intros H;
    repeat match type of H with (if ?b then _ else _) = _ => destruct b
                         | match ?b with Some _ => _ | None => _ end = _ => destruct b
                         | (let _ := _ in _) = _ => cbv zeta in H end;
    try discriminate; injection H as <- <-; try exact I; try reflexivity.
  symmetry. apply (ks_xor_zeros (cipher_ks c)).
Qed.
Lemma explain_run c lim strict h : forall p rs p', run_spec (cipher_ks c) lim strict p h = Some (rs, p') -> explained c p h rs.
Proof.
  induction h as [|o h IH]; intros p rs p' H; cbn [run_spec] in H; [injection H as <- <-; exact I|].
  destruct (step_spec _ _ _ p o) as [[r p1]|] eqn:Es; [|discriminate].
  destruct (run_spec _ _ _ p1 h) as [[rs1 p2]|] eqn:E; [|discriminate]. injection H as <- <-.
  cbn [explained]. split; [eapply explain_step; exact Es|].
  rewrite (moved_spec _ _ _ _ _ _ _ Es). eapply IH. exact E.
Qed.
(** Stay below the end: every seek target does. *)
Definition low_seek (lim : option limits) (o : op) : Prop :=
  match o with Seek q => match lim with None => True | Some l => q <= l_usable l end | _ => True end.
Lemma low_run ks lim strict h : forall p rs p', run_spec ks lim strict p h = Some (rs, p') ->
  Forall (low_seek lim) h -> within lim p -> within lim p'
  /\ forall h1 o h2 rs1 l rs2, h = h1 ++ o :: h2 -> rs = rs1 ++ Bytes l :: rs2 -> List.length rs1 = List.length h1 ->
     within lim (track p h1 rs1 + N.of_nat (List.length l)).
Proof.
  induction h as [|o h IH]; intros p rs p' H Hl Hw; cbn [run_spec] in H.
  - injection H as <- <-. split; [exact Hw|]. intros [|] ? ? ? ? ? E; discriminate E.
  - inversion Hl as [|? ? Ho Hl']; subst.
    destruct (step_spec ks lim strict p o) as [[r p1]|] eqn:Es; [|discriminate].
    destruct (run_spec ks lim strict p1 h) as [[rs1 p2]|] eqn:E; [|discriminate]. injection H as <- <-.
    assert (Hw1 : within lim p1).
    { clear IH E. destruct lim as [l|]; [|exact I].
      assert (Hgr : forall n, granted l p n = true -> within (Some l) (p + n)).
      { intros n Hg. rewrite granted_iff in Hg by exact Hw. destruct Hw as (? & ? & ?). cbn [within]. lia. }
      unfold step_spec in Es. destruct o as [d | d m | n | q | t].
      - destruct (granted l p _) eqn:Eg; injection Es as <- <-; [apply Hgr; exact Eg|exact Hw].
      - destruct (List.length d =? m)%nat; [|injection Es as <- <-; exact Hw].
        destruct (granted l p _) eqn:Eg; injection Es as <- <-; [apply Hgr; exact Eg|exact Hw].
      - destruct (granted l p _) eqn:Eg; injection Es as <- <-; [apply Hgr; exact Eg|exact Hw].
      - destruct (q / l_bs l <? l_blocks l); [|injection Es as <- <-; exact Hw].
        destruct (strict && (l_usable l <? q)); [discriminate|]. injection Es as <- <-.
        destruct Hw as (? & ? & ?). cbn [within low_seek] in *. lia.
      - cbv zeta in Es. match type of Es with (if ?b then _ else _) = _ => destruct b end; injection Es as <- <-; exact Hw. }
    destruct (IH p1 rs1 p2 E Hl' Hw1) as [Hp2 Hall]. split; [exact Hp2|].
    intros [|o1 h1] o2 h2 [|r1 rsx] l rs2 Eh Er Hlen; cbn in Hlen; try discriminate; cbn [app] in Eh, Er.
    + injection Eh as -> ->. injection Er as -> ->. cbn [track].
      pose proof (moved_spec _ _ _ _ _ _ _ Es) as Hm. cbn [moved] in Hm. rewrite Hm. exact Hw1.
    + injection Eh as -> ->. injection Er as -> ->. cbn [track]. rewrite (moved_spec _ _ _ _ _ _ _ Es).
      eapply Hall; [reflexivity|reflexivity|congruence].
Qed.
Lemma track_total h : forall p rs, List.length rs = List.length h -> Forall no_seek h -> track p h rs = p + N.of_nat (total rs).
Proof.
  induction h as [|o h IH]; intros p [|r rs] Hl Hn; cbn in Hl; try discriminate.
  - unfold total. cbn. lia.
  - inversion Hn as [|? ? Ho Hn']; subst. cbn [track]. rewrite IH by (congruence || assumption).
    unfold total. cbn [map list_sum fold_right]. fold (list_sum (map (fun r => match r with Bytes l => List.length l | _ => 0%nat end) rs)).
    destruct r as [l | | q | ]; cbn [moved]; try lia. destruct o; try lia. contradiction.
Qed.
Theorem C19_no_reuse e c h rs : env_ok e -> cipher_ok c -> Forall (call_ok e) h -> Forall no_seek h ->
  cipher_run e c h = Ok rs ->
  explained c 0 h rs                                             (* outputs use these positions ... *)
  /\ used 0 rs = map N.of_nat (seq 0 (total rs))                 (* ... which increase by one ... *)
  /\ NoDup (used 0 rs)
  /\ fits c (N.of_nat (total rs))                                (* ... and stay below the limit: *)
  /\ match c with                                                (* (counter, offset) never repeats *)
     | CChaCha Ietf _ _ _ | CXChaCha _ _ _ => NoDup (map (fun p => ((p / 64) mod 2 ^ 32, p mod 64)) (used 0 rs))
     | CChaCha Legacy _ _ _ | CSalsa _ _ _ | CXSalsa _ _ _ => NoDup (map (fun p => ((p / 64) mod 2 ^ 64, p mod 64)) (used 0 rs))
     | _ => True
     end.
Proof.
  intros He Hc Hh Hn Hr. rewrite cipher_run_ok in Hr by assumption.
  destruct (run_spec _ _ _ 0 h) as [[rs0 p']|] eqn:E; [|discriminate]. injection Hr as ->.
  assert (Hu : used 0 rs = map N.of_nat (seq 0 (total rs))) by (rewrite used_total; apply map_ext; intros; lia).
  assert (Hfit : fits c (N.of_nat (total rs))).
  { pose proof (track_total h 0 rs (run_spec_length _ _ _ _ _ _ _ E) Hn) as Ht.
    rewrite (track_spec _ _ _ _ _ _ _ E) in Ht. rewrite N.add_0_l in Ht.
    destruct (low_run _ _ _ _ _ _ _ E) as [Hw _].
    - eapply Forall_impl; [|exact Hn]. intros [| | | |]; cbn; tauto.
    - apply fits_within. unfold fits. destruct (last_byte c); [lia|exact I].
    - rewrite <- Ht. clear -Hw. unfold fits. destruct (last_byte c) as [L|] eqn:EL; [|exact I].
      destruct (last_some c L EL) as (l & El & ->). rewrite El in Hw. apply Hw. }
  assert (Hnd : NoDup (used 0 rs)).
  { rewrite Hu. apply FinFun.Injective_map_NoDup; [intros a b; apply Nat2N.inj | apply seq_NoDup]. }
  assert (Hlt : forall p, In p (used 0 rs) -> p < N.of_nat (total rs)).
  { intros p Hp. rewrite Hu in Hp. apply in_map_iff in Hp. destruct Hp as (i & <- & Hi). apply in_seq in Hi. lia. }
  assert (Hmap : forall M, N.of_nat (total rs) <= 64 * (M - 1) -> 1 < M ->
    NoDup (map (fun p => ((p / 64) mod M, p mod 64)) (used 0 rs))).
  { intros M HM HM1. revert Hnd Hlt. generalize (used 0 rs) as l. induction l as [|a l IH]; intros Hnd Hlt; [constructor|].
    inversion Hnd as [|? ? Hna Hnd']; subst. cbn [map]. constructor.
    - intros Hin. apply in_map_iff in Hin. destruct Hin as (b & Eb & Hb). apply Hna.
      pose proof (Hlt a (or_introl eq_refl)) as La. pose proof (Hlt b (or_intror Hb)) as Lb.
      injection Eb as E1 E2. rewrite !N.mod_small in E1 by lia. replace a with b by lia. exact Hb.
    - apply IH; [assumption|]. intros x Hx. apply Hlt. right. exact Hx. }
  split; [eapply explain_run; exact E|]. split; [exact Hu|]. split; [exact Hnd|]. split; [exact Hfit|].
  unfold fits in Hfit. destruct c as [[] | | | | | | | ]; cbn [last_byte] in Hfit; try exact I; apply Hmap; try exact Hfit; reflexivity.
Qed.
Print Assumptions C19_no_reuse.

(** ** C20 *)
(** Every seekable keystream function repeats with its counter. *)
Lemma ks_period c l j : cipher_lim c = Some l -> cipher_ks c (64 * l_blocks l + j) = cipher_ks c j.
Proof.
  intros H.
  assert (G : forall M blk, (forall b, blk (M + b) = blk b) -> ks_of_blocks 64 blk (64 * M + j) = ks_of_blocks 64 blk j).
  { clear. intros M blk Hp. unfold ks_of_blocks. replace ((64 * M + j) mod 64) with (j mod 64) by lia.
    replace ((64 * M + j) / 64) with (M + j / 64) by lia. rewrite Hp. reflexivity. }
  assert (E32 : forall b, (2 ^ 32 + b) mod 2 ^ 32 = b mod 2 ^ 32) by (intros b; change (2 ^ 32) with M32; lia).
  assert (Es : forall b, ss_counter (2 ^ 64 + b) = ss_counter b).
  { intros b. unfold ss_counter. apply map_ext_in. intros i Hi. change (2 ^ 8) with 256. change (2 ^ 64) with M64.
    repeat (destruct Hi as [<- | Hi]; [cbn [N.mul Pos.mul]|]); [..|contradiction];
      match goal with |- context [2 ^ ?e] => let v := eval vm_compute in (2 ^ e) in change (2 ^ e) with v end; lia. }
  destruct c as [[] dr key iv | dr key iv | dr key iv | dr key iv | | | | ]; cbn [cipher_lim] in H; try discriminate H; injection H as <-;
    unfold cipher_ks; cbn [l_blocks]; apply G; intros b.
  - unfold sp_ietf_block, sp_ietf_state. rewrite E32. reflexivity.
  - unfold sp_djb_block, sp_djb_state. change (2 ^ 64) with (2 ^ 32 * 2 ^ 32). change (2 ^ 32) with M32.
    replace ((M32 * M32 + b) mod M32) with (b mod M32) by lia.
    replace ((M32 * M32 + b) / M32 mod M32) with (b / M32 mod M32) by lia. reflexivity.
  - unfold sp_xchacha_block, sp_ietf_block, sp_ietf_state. rewrite E32. reflexivity.
  - unfold ss_block. rewrite Es. reflexivity.
  - unfold ss_xblock, ss_block. rewrite Es. reflexivity.
Qed.
(** Refuted, for every cipher type with a block counter (Salsa: in builds without overflow
    checks), every environment, key and nonce: seek one byte into the last block (which
    [try_seek] accepts), and 127 bytes are granted; the last 64 of them are keystream
    block 0, which had been used before. *)
Theorem C20_guard_after_seek_refuted e c L : env_ok e -> cipher_ok c -> last_byte c = Some L -> cipher_strict e c = false ->
  exists a b, cipher_run e c [Write 64; Seek (L + 1); Write 127] = Ok [Bytes b; Done; Bytes (a ++ b)]
              /\ List.length a = 63%nat /\ List.length b = 64%nat.
Proof.
  intros He Hc HL Hst. destruct (last_some c L HL) as (l & El & ->). destruct (last_lim c l El) as (_ & Hb & H64).
  assert (Hu : l_usable l = 64 * (l_blocks l - 1)) by (unfold l_usable; rewrite H64; reflexivity).
  assert (Hbig : 2 <= l_blocks l) by lia.
  set (p := l_usable l + 1). exists (ks_range (cipher_ks c) p 63), (ks_range (cipher_ks c) 0 64).
  split; [|split; apply ks_range_length].
  assert (E : ks_range (cipher_ks c) p 127 = ks_range (cipher_ks c) p 63 ++ ks_range (cipher_ks c) 0 64).
  { replace 127%nat with (63 + 64)%nat by reflexivity. rewrite ks_range_app. apply (f_equal2 (@app N)); [reflexivity|].
    unfold ks_range. apply map_ext. intros i. rewrite <- (ks_period c l (0 + N.of_nat i) El). f_equal. unfold p. lia. }
  rewrite <- E. rewrite cipher_run_ok; [|exact He | exact Hc |].
  2:{ repeat constructor; cbn [call_ok]; destruct He as [-> | [-> | ->]]; reflexivity. }
  rewrite El, Hst. cbn [run_spec]. unfold step_spec at 1. rewrite granted_iff by (cbn [within]; lia).
  destruct (N.leb_spec (0 + N.of_nat 64) (l_usable l)); [|lia].
  unfold step_spec at 1. rewrite H64. destruct (N.ltb_spec (p / 64) (l_blocks l)); [|unfold p in *; lia]. cbn [andb].
  unfold step_spec at 1. unfold granted. cbv zeta.
  assert (Hper : l_period l = 64 * l_blocks l) by (unfold l_period; rewrite H64; reflexivity).
  rewrite (N.mod_small p) by (unfold p; lia). destruct (N.leb_spec p (l_usable l)); [unfold p in *; lia|].
  destruct (N.leb_spec (p + N.of_nat 127) (l_period l + l_usable l)); [|unfold p in *; lia].
  reflexivity.
Qed.
Print Assumptions C20_guard_after_seek_refuted.
(** With overflow checks, the same seek panics in Salsa. *)
Theorem C20_salsa_checked_panics e c L : env_ok e -> cipher_ok c -> last_byte c = Some L -> cipher_strict e c = true ->
  cipher_run e c [Seek (L + 1)] = Panic.
Proof.
  intros He Hc HL Hst. destruct (last_some c L HL) as (l & El & ->). destruct (last_lim c l El) as (_ & Hb & H64).
  assert (Hu : l_usable l = 64 * (l_blocks l - 1)) by (unfold l_usable; rewrite H64; reflexivity).
  rewrite cipher_run_ok; [|exact He | exact Hc | repeat constructor].
  rewrite El, Hst. cbn [run_spec]. unfold step_spec at 1. rewrite H64.
  destruct (N.ltb_spec ((l_usable l + 1) / 64) (l_blocks l)); [|lia].
  destruct (N.ltb_spec (l_usable l) (l_usable l + 1)); [|lia]. reflexivity.
Qed.
Print Assumptions C20_salsa_checked_panics.
(** What does hold: if no seek goes past the start of the last block, every granted
    request ends at or before it, after any history. *)
Theorem C20_guard_after_seek_partial e c L h rs : env_ok e -> cipher_ok c -> Forall (call_ok e) h ->
  last_byte c = Some L -> Forall (fun o => match o with Seek q => q <= L | _ => True end) h ->
  cipher_run e c h = Ok rs ->
  forall h1 o h2 rs1 l rs2, h = h1 ++ o :: h2 -> rs = rs1 ++ Bytes l :: rs2 -> List.length rs1 = List.length h1 ->
  track 0 h1 rs1 + N.of_nat (List.length l) <= L.
Proof.
  intros He Hc Hh HL Hs Hr h1 o h2 rs1 l rs2 Eh Er Hlen. rewrite cipher_run_ok in Hr by assumption.
  destruct (run_spec _ _ _ 0 h) as [[rs0 p']|] eqn:E; [|discriminate]. injection Hr as ->.
  destruct (last_some c L HL) as (lm & El & ->). rewrite El in E.
  destruct (low_run _ _ _ _ _ _ _ E) as [_ Hall].
  - exact Hs.
  - rewrite <- El. apply fits_within. unfold fits. rewrite HL. lia.
  - apply (Hall h1 o h2 rs1 l rs2 Eh Er Hlen).
Qed.
Print Assumptions C20_guard_after_seek_partial.

(** ** The hypotheses are satisfiable *)
Definition ex_env : env :=
  {| e_cfg := {| c_target := X86; c_backend := NoCfg; c_avx512 := false |};
     e_cpu := {| has_avx512 := false; has_avx2 := true; has_sse2 := true |}; e_usz := 64; e_ck := true |}.
Definition ex_env2 : env :=
  {| e_cfg := {| c_target := OtherTarget; c_backend := NoCfg; c_avx512 := false |};
     e_cpu := {| has_avx512 := false; has_avx2 := false; has_sse2 := false |}; e_usz := 32; e_ck := false |}.
Definition ex_key16 := firstn 16 ex_key.
Definition ex_ciphers : list cipher :=
  [CChaCha Ietf 4 ex_key ex_nonce12; CChaCha Legacy 10 ex_key ex_nonce8; CXChaCha 6 ex_key ex_nonce24;
   CSalsa 4 ex_key ex_nonce8; CXSalsa 10 ex_key ex_nonce24; CRabbit ex_key16 ex_nonce8; CRabbitKeyOnly ex_key16;
   CHc256 ex_key ex_key; CRc4 ex_key16].
Example all_ok : env_ok ex_env /\ env_ok ex_env2 /\ Forall cipher_ok ex_ciphers.
Proof.
  split; [right; right; reflexivity|]. split; [right; left; reflexivity|].
  repeat constructor; try (vm_compute; reflexivity); vm_compute; lia.
Qed.
Definition ex_chunks : list (list N) := [[1; 2; 3]; []; repeat 5 70].
Example C13_satisfiable : Forall (short ex_env) ex_chunks /\ Forall (fun c => fits c 73) ex_ciphers
  /\ List.length (concat ex_chunks) = 73%nat
  /\ cipher_run ex_env (CChaCha Ietf 4 ex_key ex_nonce12) (map Apply ex_chunks)
     = Ok (map Bytes (let k := xored (CChaCha Ietf 4 ex_key ex_nonce12) 0 (concat ex_chunks) in [firstn 3 k; []; skipn 3 k])).
Proof.
  split; [repeat constructor; vm_compute; reflexivity|]. split; [repeat constructor; vm_compute; discriminate|].
  split; [reflexivity|]. vm_compute. reflexivity.
Qed.
Example C14_satisfiable : let c := CRc4 ex_key16 in let o := xored c 0 [10; 20; 30] in
  cipher_run ex_env c (map Apply [[10; 20]; [30]]) = Ok (map Bytes [firstn 2 o; skipn 2 o])
  /\ cipher_run ex_env2 c (map Apply [firstn 1 o; skipn 1 o]) = Ok (map Bytes [[10]; [20; 30]]).
Proof. vm_compute. split; reflexivity. Qed.
Example C15_satisfiable :
  cipher_run ex_env (CSalsa 4 ex_key ex_nonce8) [Write 3; Write 2; Write 1]
  = cipher_run ex_env (CSalsa 4 ex_key ex_nonce8) [Write 3; Apply [0; 0]; Write 1].
Proof. vm_compute. reflexivity. Qed.
(** A seek back into a cached block, forward over 2^32 bytes, and a failing one. *)
Example C16_satisfiable : let c := CChaCha Ietf 4 ex_key ex_nonce12 in let a := xored c 0 (repeat 0 70) in
  cipher_run ex_env c [Write 70; Seek 10; CurPos 256; Write 5; CurPos 256; Seek (2 ^ 38); Seek (2 ^ 38 - 65); Write 1; CurPos (2 ^ 64); Write 1]
  = Ok [Bytes a; Done; Pos 10; Bytes (firstn 5 (skipn 10 a)); Pos 15; Err; Done; Bytes (xored c (2 ^ 38 - 65) [0]); Pos (2 ^ 38 - 64); Err].
Proof. vm_compute. reflexivity. Qed.
Example C18_satisfiable :
  exists a, cipher_run ex_env (CXChaCha 4 ex_key ex_nonce24) [Seek (64 * (2 ^ 32 - 2)); Write 65; Write 64; CurPos (2 ^ 39); Write 0; Write 1]
  = Ok [Done; Err; Bytes a; Pos (64 * (2 ^ 32 - 1)); Bytes []; Err].
Proof. vm_compute. eexists. reflexivity. Qed.
Example C20_witness : let c := CChaCha Ietf 4 ex_key ex_nonce12 in let b := xored c 0 (repeat 0 64) in
  cipher_run ex_env c [Write 64; Seek (64 * (2 ^ 32 - 1) + 1); Write 127]
  = Ok [Bytes b; Done; Bytes (xored c (64 * (2 ^ 32 - 1) + 1) (repeat 0 63) ++ b)].
Proof. vm_compute. reflexivity. Qed.
(** Panicking instance of the same with overflow checks, wrapping one without. *)
Example C20_salsa_witness :
  cipher_run ex_env (CSalsa 4 ex_key ex_nonce8) [Seek (64 * (2 ^ 64 - 1) + 1)] = Panic
  /\ exists a, cipher_run ex_env2 (CSalsa 4 ex_key ex_nonce8) [Seek (64 * (2 ^ 64 - 1) + 1); Write 1] = Ok [Done; Bytes a].
Proof. vm_compute. split; [reflexivity|]. eexists. reflexivity. Qed.
