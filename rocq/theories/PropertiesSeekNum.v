(** C56: positions given as any of the integer types of [SeekNum]. *)
From Coq Require Import String.
From Verif Require Import Word Res WordLemmas Hex PropCommon SpecStream SpecChaCha SpecSalsa
  ChaChaCore ChaChaProofs ChaChaDispatch XChaCha ChaChaDispatchProofs
  CipherWrapper WrapperProofs Salsa SalsaProofs Ciphers CiphersProofs SeekNum.
From Coq Require Import ZArith Lia ZifyBool ZifyNat ZifyN.
Ltac Zify.zify_post_hook ::= Z.div_mod_to_equations.
Open Scope Z_scope.

(** ** Specification *)
(** The position machine of [SpecStream] with typed calls.  A negative position more than
    a block below zero is refused; a negative position less than a block below zero panics.
    A position is reported as the number of bytes from the start, provided the end of its
    block fits the type; in the final block, which [SpecStream] calls an error, a signed
    type reports the (negative) distance to the end of the period. *)
Definition tstep_spec (ks : N -> N) (l : limits) (strict : bool) (usz : N) (P : N) (o : top) : option (tret * N) :=
  let plain o := match step_spec ks (Some l) strict P o with None => None | Some (r, P') => Some (Ans r, P') end in
  match o with
  | Plain o => plain o
  | TSeek _ z => if z <=? - Z.of_N (l_bs l) then Some (Ans Err, P)
                 else if z <? 0 then None
                 else plain (Seek (Z.to_N z))
  | TPos t =>
      let q := (P mod l_period l)%N in
      let up := ((q + l_bs l - 1) / l_bs l * l_bs l)%N in
      if (q <=? l_usable l)%N
      then if Z.of_N up <=? ty_max usz t then Some (At (Z.of_N q), P) else Some (Ans Err, P)
      else match t with
           | I32 => Some (At (Z.of_N q - Z.of_N (l_period l)), P)
           | _ => Some (Ans Err, P)
           end
  end.
Fixpoint trun_spec (ks : N -> N) (l : limits) (strict : bool) (usz : N) (P : N) (h : list top) : option (list tret) :=
  match h with
  | [] => Some []
  | o :: h' => match tstep_spec ks l strict usz P o with
               | None => None
               | Some (r, P') => match trun_spec ks l strict usz P' h' with None => None | Some rs => Some (r :: rs) end
               end
  end.
Definition texpect (x : option (list tret)) : Res (list tret) := match x with None => Panic | Some rs => Ok rs end.
(** Calls whose buffers are addressable and whose positions are values of their type. *)
Definition tcall_ok (e : env) (o : top) : Prop :=
  match o with
  | Plain o => call_ok e o
  | TSeek t z => ty_min t <= z <= ty_max (e_usz e) t
  | TPos _ => True
  end.

(** ** One call *)
(** Non-negative values of every type seek like [try_seek]; negative ones never do. *)
Theorem C56_seek {S} (C : score S) K w z : sc_bs C = 64%nat -> (0 < sk_mod K)%N ->
  try_seek_z C K w z =
    (if z <=? -64 then Ok None else if z <? 0 then Panic else try_seek C K w (Z.to_N z)).
Proof.
  intros Hb HM. unfold try_seek_z, into_block_byte, try_seek. rewrite Hb. change (Z.of_N (N.of_nat 64)) with 64.
  change (N.of_nat 64) with 64%N.
  pose proof (Z.quot_rem' z 64) as E.
  assert (Hneg : z < 0 -> -64 < Z.rem z 64 <= 0) by (intros; pose proof (Z.rem_bound_abs z 64 ltac:(lia)); pose proof (Z.rem_nonpos z 64 ltac:(lia) ltac:(lia)); lia).
  assert (Hnn : 0 <= z -> 0 <= Z.rem z 64 < 64) by (intros; apply Z.rem_bound_pos; lia).
  destruct (Z.leb_spec z (-64)).
  - specialize (Hneg ltac:(lia)).
    destruct (Z.leb_spec 0 (Z.quot z 64)); [lia|]. reflexivity.
  - destruct (Z.ltb_spec z 0).
    + specialize (Hneg ltac:(lia)).
      assert (Eq : Z.quot z 64 = 0) by lia. rewrite Eq in *. assert (Er : Z.rem z 64 = z) by lia. rewrite Er.
      destruct (Z.leb_spec 0 0); [|lia]. destruct (Z.ltb_spec 0 (Z.of_N (sk_mod K))); [|lia]. cbn [andb].
      assert (Em : z mod 256 = z + 256) by (symmetry; apply (Z.mod_unique z 256 (-1)); lia).
      rewrite Em. destruct (N.ltb_spec (Z.to_N (z + 256)) 64); [lia|]. reflexivity.
    + specialize (Hnn ltac:(lia)).
      assert (Eq : Z.quot z 64 = Z.of_N (Z.to_N z / 64)) by (rewrite Z.quot_div_nonneg by lia; lia).
      assert (Er : Z.rem z 64 = Z.of_N (Z.to_N z mod 64)) by (rewrite Z.rem_mod_nonneg by lia; lia).
      rewrite Eq, Er. destruct (Z.leb_spec 0 (Z.of_N (Z.to_N z / 64))); [|lia]. cbn [andb]. rewrite N2Z.id.
      rewrite Z.mod_small, N2Z.id by lia.
      destruct (Z.ltb_spec (Z.of_N (Z.to_N z / 64)) (Z.of_N (sk_mod K))); destruct (N.ltb_spec (Z.to_N z / 64) (sk_mod K)); try lia; [|reflexivity].
      destruct (N.ltb_spec (Z.to_N z mod 64) 64); [|lia]. reflexivity.
Qed.
Print Assumptions C56_seek.

(** ** Histories *)
(** What is needed of a core: a relation to byte positions, kept by every call. *)
Definition tracks {S} (C : score S) (K : sseek S) ks strict usz (w0 : wrapper S) : Prop :=
  sc_bs C = 64%nat /\ (1 < sk_mod K)%N /\
  exists WR : wrapper S -> N -> Prop, WR w0 0%N
  /\ (forall w P o, WR w P -> op_fits usz o ->
      match step_spec ks (Some {| l_bs := 64; l_blocks := sk_mod K |}) strict P o with
      | None => step C (Some K) w o = Panic
      | Some (r, P') => exists w', step C (Some K) w o = Ok (r, w') /\ WR w' P'
      end)
  /\ (forall w P, WR w P ->
      let M := sk_mod K in let r := N.of_nat (64 - w_cur w) in let c' := sk_get K (w_core w) in let q := (P mod (64 * M))%N in
      (w_cur w <= 64)%nat /\ (r < 64)%N /\ (c' < M)%N /\
      ((q = 64 * c' - r /\ r <= 64 * c' /\ q <= 64 * (M - 1))%N \/ (c' = 0 /\ 0 < r /\ q = 64 * M - r /\ 64 * (M - 1) < q)%N)).

Lemma tracks_run {S} (C : score S) K ks strict e w0 h : (e_usz e <= 64)%N -> (6 <= e_usz e)%N -> (sk_mod K <= 2 ^ 64)%N ->
  tracks C K ks strict (e_usz e) w0 -> Forall (tcall_ok e) h ->
  trun C K (e_usz e) w0 h = texpect (trun_spec ks {| l_bs := 64; l_blocks := sk_mod K |} strict (e_usz e) 0 h).
Proof.
  intros Hu1 Hu2 HM64 (Hb & HM & WR & H0 & Hstep & Hpos) Hh.
  set (l := {| l_bs := 64; l_blocks := sk_mod K |}) in *.
  enough (G : forall w P, WR w P -> trun C K (e_usz e) w h = texpect (trun_spec ks l strict (e_usz e) P h)) by (apply G; exact H0).
  clear w0 H0. induction Hh as [|o h Ho Hh IH]; intros w P HW; [reflexivity|]. cbn [trun trun_spec].
  assert (Hs : match tstep_spec ks l strict (e_usz e) P o with
               | None => tstep C K (e_usz e) w o = Panic
               | Some (r, P') => exists w', tstep C K (e_usz e) w o = Ok (r, w') /\ WR w' P'
               end).
  { destruct o as [o|t z|t]; cbn [tcall_ok] in Ho; cbn [tstep tstep_spec].
    - pose proof (Hstep w P o HW Ho) as H. destruct (step_spec _ _ _ P o) as [[r P']|].
      + destruct H as (w' & E & HW'). rewrite E. cbn [bind]. exists w'. split; [reflexivity | exact HW'].
      + rewrite H. reflexivity.
    - rewrite C56_seek by (try assumption; lia). cbn [l_bs l]. change (- Z.of_N 64) with (-64).
      destruct (z <=? -64); [cbn [bind]; exists w; split; [reflexivity | exact HW]|].
      destruct (z <? 0); [reflexivity|].
      pose proof (Hstep w P (Seek (Z.to_N z)) HW I) as H. cbn [step] in H. fold l in H.
      destruct (step_spec _ _ _ P (Seek (Z.to_N z))) as [[r P']|].
      + destruct H as (w' & E & HW'). destruct (try_seek C K w (Z.to_N z)) as [[w1|]|]; cbn [bind] in *; try discriminate;
          injection E as <- <-; eexists; (split; [reflexivity | exact HW']).
      + destruct (try_seek C K w (Z.to_N z)) as [[w1|]|]; cbn [bind] in *; try discriminate. reflexivity.
    - cbn zeta. unfold l_period, l_usable. cbn [l_bs l_blocks l]. clear IH Hstep.
      destruct (Hpos w P HW) as (H1 & H2 & H3 & H4).
      unfold try_current_pos_z, from_block_byte. rewrite Hb. change (N.of_nat 64) with 64%N. change (Z.of_N 64) with 64.
      destruct (N.leb_spec (N.of_nat (w_cur w)) 64); [|lia].
      set (M := sk_mod K) in *. set (c' := sk_get K (w_core w)) in *.
      set (q := (P mod (64 * M))%N) in *. clearbody q c' M.
      assert (Hm : 0 <= ty_max (e_usz e) t).
      { destruct t; cbn [ty_max]; lia. }
      set (m := ty_max (e_usz e) t) in *. clearbody m.
      replace (Z.of_N (64 - N.of_nat (w_cur w))) with (Z.of_N (N.of_nat (64 - w_cur w))) by lia.
      set (r := N.of_nat (64 - w_cur w)) in *. clearbody r.
      destruct H4 as [(Eq & Hle & Hq) | (Ec & Hr & Eq & Hq)].
      + destruct (N.leb_spec q (64 * (M - 1))); [|lia].
        assert (Eup : ((q + 64 - 1) / 64 = c')%N) by (symmetry; apply (N.div_unique _ _ _ (63 - r)); lia).
        rewrite Eup. assert (Hmin : ty_min t <= 0) by (destruct t; cbn [ty_min]; lia).
        destruct (Z.leb_spec (Z.of_N (c' * 64)) m).
        * destruct (Z.leb_spec (Z.of_N c') m); [|lia]. destruct (Z.leb_spec (Z.of_N c' * 64) m); [|lia].
          destruct (Z.leb_spec (ty_min t) (Z.of_N c' * 64 - Z.of_N r)); [|lia].
          exists w. split; [|exact HW]. do 3 f_equal. lia.
        * destruct (Z.leb_spec (Z.of_N c') m); [destruct (Z.leb_spec (Z.of_N c' * 64) m); [lia|]|];
            exists w; (split; [reflexivity | exact HW]).
      + destruct (N.leb_spec q (64 * (M - 1))); [lia|]. rewrite Ec.
        destruct (Z.leb_spec (Z.of_N 0) m); [|lia]. destruct (Z.leb_spec (Z.of_N 0 * 64) m); [|lia].
        destruct t; cbn [ty_min].
        1:{ destruct (Z.leb_spec (- 2 ^ 31) (Z.of_N 0 * 64 - Z.of_N r)); [|lia]. exists w. split; [|exact HW]. do 3 f_equal. lia. }
        all: destruct (Z.leb_spec 0 (Z.of_N 0 * 64 - Z.of_N r)); [lia|]; exists w; (split; [reflexivity | exact HW]). }
  destruct (tstep_spec ks l strict (e_usz e) P o) as [[r P']|].
  - destruct Hs as (w' & E & HW'). rewrite E. cbn [bind]. rewrite (IH w' P' HW').
    destruct (trun_spec ks l strict (e_usz e) P' h); reflexivity.
  - rewrite Hs. reflexivity.
Qed.

(** The two families. *)
Lemma chacha_tracks e v n key iv blk :
  List.length key = 32%nat -> List.length iv = nonce_len v -> bytes key -> bytes iv ->
  (forall c k, blocks_from v n k (mk_state v key iv c) = flat_map (fun i => blk (c + N.of_nat i)%N) (seq 0 k)) ->
  tracks (chacha_score e v n) (chacha_seek v) (ks_of_blocks 64 blk) false (e_usz e) (w_new (chacha_score e v n) (mk_state v key iv 0)).
Proof.
  intros Hk Hi Bk Bi Hb. split; [reflexivity|]. split; [destruct v; reflexivity|].
  assert (Hwf : forall c, wf16 (mk_state v key iv c)) by (intros; apply mk_state_wf; assumption).
  assert (Hlen : forall i, List.length (blk i) = 64%nat).
  { intros i. pose proof (blocks_from_length v n 1 _ (Hwf i)) as H. rewrite Hb in H.
    cbn [seq flat_map] in H. rewrite app_nil_r in H. change (N.of_nat 0) with 0%N in H. rewrite N.add_0_r in H. exact H. }
  set (Rep := fun (st : list N) c => st = mk_state v key iv c).
  assert (Hgen : forall st c k, Rep st c -> True -> exists st',
    sc_gen (chacha_score e v n) k st
      = Ok (ks_range (ks_of_blocks 64 blk) (N.of_nat (sc_bs (chacha_score e v n)) * c) (sc_bs (chacha_score e v n) * k), st')
    /\ Rep st' (c + N.of_nat k)%N).
  { intros st c k -> _. cbn [sc_gen sc_bs chacha_score]. rewrite core_write_ok by apply Hwf. rewrite Hb.
    eexists. split; [|unfold Rep; apply adv_mk_state; exact Hk].
    f_equal. f_equal. apply (ks_of_blocks_range 64); [lia | exact Hlen]. }
  assert (HS : forall (c : N) (a b : nat), True -> True /\ True) by auto.
  assert (HM : (1 < sk_mod (chacha_seek v))%N) by (destruct v; reflexivity).
  assert (Hget : forall st c, Rep st c -> sk_get (chacha_seek v) st = (c mod sk_mod (chacha_seek v))%N)
    by (intros st c ->; apply get_pos_mk; exact Hk).
  pose proof (WRep_new (chacha_score e v n) (ks_of_blocks 64 blk) Rep (fun _ _ => True) ltac:(cbn; lia) Hgen HS (mk_state v key iv 0) 0%N eq_refl) as HW.
  rewrite N.mul_0_r in HW.
  pose proof (step_seekable (chacha_score e v n) (ks_of_blocks 64 blk) Rep (fun _ _ => True) ltac:(cbn; lia) Hgen HS
    (chacha_seek v) (e_usz e) false eq_refl HM Hget) as R.
  pose proof (pos_cases (chacha_score e v n) (ks_of_blocks 64 blk) Rep (fun _ _ => True) ltac:(cbn; lia) Hgen HS
    (chacha_seek v) (e_usz e) false eq_refl HM Hget) as R'.
  assert (Hset : forall st c b, Rep st c -> (b < sk_mod (chacha_seek v))%N -> Rep (sk_set (chacha_seek v) st b) b)
    by (intros st c b -> Hb'; apply set_pos_mk; assumption).
  specialize (R Hset). specialize (R' Hset). clear Hset.
  specialize (R ltac:(intros st c ->; cbn [sc_rem chacha_score]; rewrite get_pos_mk by exact Hk; destruct v; reflexivity)).
  specialize (R' ltac:(intros st c ->; cbn [sc_rem chacha_score]; rewrite get_pos_mk by exact Hk; destruct v; reflexivity)).
  specialize (R (fun _ _ _ => I) (fun _ _ _ => I) ltac:(discriminate)).
  specialize (R' (fun _ _ _ => I) (fun _ _ _ => I) ltac:(discriminate)).
  exists (fun w P => exists c, WRep (chacha_score e v n) (ks_of_blocks 64 blk) Rep w P c).
  split; [exists 0%N; exact HW|]. split.
  - intros w P o (c & Hw) Ho. specialize (R w P c o Hw ltac:(discriminate) Ho).
    destruct (step_spec _ _ _ P o) as [[r P']|]; [|exact R].
    destruct R as (w' & c' & E & Hw' & _). exists w'. split; [exact E|]. exists c'. exact Hw'.
  - intros w P (c & Hw). destruct (R' w P c Hw) as [Hr Hc].
    destruct Hw as (H1 & H2 & _ & HR & _). cbv zeta. rewrite (Hget _ _ HR).
    split; [exact H2|]. split; [exact Hr|]. split; [apply N.mod_lt; lia | exact Hc].
Qed.

Lemma salsa_tracks e n key iv :
  List.length key = 32%nat -> List.length iv = 8%nat -> bytes key -> bytes iv ->
  tracks (salsa_score e n) salsa_seek (ks_of_blocks 64 (ss_block n key iv)) (e_ck e) (e_usz e) (w_new (salsa_score e n) (s_state key iv 0)).
Proof.
  intros Hk Hi Bk Bi. split; [reflexivity|]. split; [reflexivity|].
  set (Rep := fun (st : list N) c => st = s_state key iv c).
  set (safe := fun (c : N) (k : nat) => e_ck e = true -> (c mod M64 + N.of_nat k < M64)%N).
  assert (Hgen : forall st c k, Rep st c -> safe c k -> exists st',
    sc_gen (salsa_score e n) k st
      = Ok (ks_range (ks_of_blocks 64 (ss_block n key iv)) (N.of_nat (sc_bs (salsa_score e n)) * c) (sc_bs (salsa_score e n) * k), st')
    /\ Rep st' (c + N.of_nat k)%N).
  { intros st c k -> Hs. cbn [sc_gen sc_bs salsa_score].
    rewrite salsa_write_ok; [|apply s_state_wf; assumption | rewrite s_ctr_state by assumption; exact Hs].
    rewrite s_blocks_spec by assumption. eexists. split; [|unfold Rep; apply s_adv_state; assumption].
    f_equal. f_equal. apply (ks_of_blocks_range 64); [lia|]. intros i. apply ss_block_length; assumption. }
  assert (HS : forall c a b, safe c (a + b)%nat -> safe c a /\ safe (c + N.of_nat a)%N b).
  { unfold safe. clear. intros c a b H. split; intros E; specialize (H E); lia. }
  assert (Hget : forall st c, Rep st c -> sk_get salsa_seek st = (c mod sk_mod salsa_seek)%N)
    by (intros st c ->; apply s_get_state; assumption).
  pose proof (WRep_new (salsa_score e n) (ks_of_blocks 64 (ss_block n key iv)) Rep safe ltac:(cbn; lia) Hgen HS (s_state key iv 0) 0%N eq_refl) as HW.
  rewrite N.mul_0_r in HW.
  pose proof (step_seekable (salsa_score e n) (ks_of_blocks 64 (ss_block n key iv)) Rep safe ltac:(cbn; lia) Hgen HS
    salsa_seek (e_usz e) (e_ck e) eq_refl eq_refl Hget) as R.
  pose proof (pos_cases (salsa_score e n) (ks_of_blocks 64 (ss_block n key iv)) Rep safe ltac:(cbn; lia) Hgen HS
    salsa_seek (e_usz e) (e_ck e) eq_refl eq_refl Hget) as R'.
  assert (Hset : forall st c b, Rep st c -> (b < sk_mod salsa_seek)%N -> Rep (sk_set salsa_seek st b) b)
    by (intros st c b -> Hb'; apply s_set_state; assumption).
  specialize (R Hset). specialize (R' Hset). clear Hset.
  specialize (R ltac:(intros st c ->; cbn [sc_rem salsa_score]; unfold salsa_remaining; rewrite s_get_state by assumption; reflexivity)).
  specialize (R' ltac:(intros st c ->; cbn [sc_rem salsa_score]; unfold salsa_remaining; rewrite s_get_state by assumption; reflexivity)).
  assert (H1 : forall c k, (c mod sk_mod salsa_seek + N.of_nat k < sk_mod salsa_seek)%N -> safe c k) by (intros c k H _; exact H).
  assert (H2 : e_ck e = false -> forall c k, safe c k) by (intros E c k E'; congruence).
  specialize (R H1 H2). specialize (R' H1 H2).
  assert (H3 : e_ck e = true -> forall st, Rep st (sk_mod salsa_seek - 1)%N -> sc_gen (salsa_score e n) 1 st = Panic).
  { intros E st ->. cbn [sc_gen salsa_score]. rewrite E. apply salsa_write_panic; [apply s_state_wf; assumption|].
    rewrite s_ctr_state by assumption. cbn [sk_mod salsa_seek]. change (N.of_nat 1) with 1%N. lia. }
  specialize (R H3). specialize (R' H3).
  exists (fun w P => (exists c, WRep (salsa_score e n) (ks_of_blocks 64 (ss_block n key iv)) Rep w P c) /\ strict_ok salsa_seek (e_ck e) P).
  split; [split; [exists 0%N; exact HW | intros _; cbn; discriminate]|]. split.
  - intros w P o ((c & Hw) & Hst) Ho. specialize (R w P c o Hw Hst Ho).
    destruct (step_spec _ _ _ P o) as [[r P']|]; [|exact R].
    destruct R as (w' & c' & E & Hw' & Hst'). exists w'. split; [exact E|]. split; [exists c'; exact Hw' | exact Hst'].
  - intros w P ((c & Hw) & _). destruct (R' w P c Hw) as [Hr Hc].
    destruct Hw as (G1 & G2 & _ & HR & _). cbv zeta. rewrite (Hget _ _ HR).
    split; [exact G2|]. split; [exact Hr|]. split; [apply N.mod_lt; discriminate | exact Hc].
Qed.

(** Every history of typed calls on a fresh cipher is told by the specification. *)
Theorem C56_run e c l h : env_ok e -> cipher_ok c -> cipher_lim c = Some l -> Forall (tcall_ok e) h ->
  typed_run e c h = texpect (trun_spec (cipher_ks c) l (cipher_strict e c) (e_usz e) 0 h).
Proof.
  intros He Hc Hl Hh.
  assert (Hu : (6 <= e_usz e <= 64)%N) by (destruct He as [-> | [-> | ->]]; lia).
  destruct c as [v n key iv | n key iv | n key iv | n key iv | key iv | key | key iv | key]; cbn [typed_run cipher_lim cipher_strict cipher_ok] in *; try discriminate Hl.
  - assert (Hc' : octets 32 key /\ octets (nonce_len v) iv) by (destruct v; exact Hc).
    destruct Hc' as [[Hk Bk] [Hi Bi]]. rewrite new_internal_ok by assumption. cbn [bind].
    rewrite (tracks_run (chacha_score e v n) (chacha_seek v) (ks_of_blocks 64 (fun i => spec_block v n key i iv)) false e);
      [ | lia | lia | destruct v; cbn; lia | apply chacha_tracks; try assumption; intros; apply blocks_from_spec; assumption | exact Hh].
    destruct v; injection Hl as <-; reflexivity.
  - destruct Hc as [[Hk Bk] [Hi Bi]]. rewrite xchacha_new_ok by assumption. cbn [bind].
    assert (H16 : List.length (firstn 16 iv) = 16%nat) by (rewrite firstn_length, Hi; reflexivity).
    assert (Hx : List.length (xnonce iv) = 12%nat) by (unfold xnonce; rewrite app_length, repeat_length, skipn_length, Hi; reflexivity).
    rewrite (tracks_run (chacha_score e Ietf n) (chacha_seek Ietf) (ks_of_blocks 64 (fun i => sp_xchacha_block n key i iv)) false e);
      [ | lia | lia | cbn; lia | apply chacha_tracks | exact Hh].
    + injection Hl as <-. reflexivity.
    + apply hchacha_length; auto using bytes_firstn.
    + exact Hx.
    + apply hchacha_bytes; assumption.
    + unfold xnonce. apply Forall_app. split; [repeat constructor | apply bytes_skipn; exact Bi].
    + intros. apply xchacha_blocks; assumption.
  - destruct Hc as [[Hk Bk] [Hi Bi]]. rewrite salsa_new_eq by assumption. cbn [bind].
    rewrite (tracks_run (salsa_score e n) salsa_seek (ks_of_blocks 64 (ss_block n key iv)) (e_ck e) e);
      [ | lia | lia | cbn; lia | apply salsa_tracks; assumption | exact Hh].
    injection Hl as <-. reflexivity.
  - destruct Hc as [[Hk Bk] [Hi Bi]]. rewrite xsalsa_new_eq by assumption. cbn [bind].
    assert (H16 : List.length (firstn 16 iv) = 16%nat) by (rewrite firstn_length, Hi; reflexivity).
    assert (H8 : List.length (skipn 16 iv) = 8%nat) by (rewrite skipn_length, Hi; reflexivity).
    rewrite (tracks_run (salsa_score e n) salsa_seek (ks_of_blocks 64 (ss_block n (hsalsa n key (firstn 16 iv)) (skipn 16 iv))) (e_ck e) e);
      [ | lia | lia | cbn; lia | apply salsa_tracks | exact Hh].
    + injection Hl as <-. rewrite hsalsa_spec by auto using bytes_firstn. reflexivity.
    + apply hsalsa_length; assumption.
    + exact H8.
    + apply hsalsa_bytes; assumption.
    + apply bytes_skipn. exact Bi.
Qed.
Print Assumptions C56_run.

(** Non-negative positions of any type, reported in an unsigned type, are the untyped calls
    of [SpecStream]: all theorems about histories apply to them. *)
Definition untyped (usz : N) (o : top) : op :=
  match o with Plain o => o | TSeek _ z => Seek (Z.to_N z) | TPos t => CurPos (Z.to_N (ty_max usz t + 1)) end.
Definition retyped (o : top) (r : ret) : tret :=
  match o, r with TPos _, Pos p => At (Z.of_N p) | _, r => Ans r end.
Fixpoint retype (h : list top) (rs : list ret) : list tret :=
  match h, rs with o :: h, r :: rs => retyped o r :: retype h rs | _, _ => [] end.
Theorem C56_untyped e c l h : env_ok e -> cipher_ok c -> cipher_lim c = Some l -> Forall (tcall_ok e) h ->
  Forall (fun o => match o with TSeek _ z => 0 <= z | TPos t => t <> I32 | _ => True end) h ->
  typed_run e c h = do rs <- cipher_run e c (map (untyped (e_usz e)) h); Ok (retype h rs).
Proof.
  intros He Hc Hl Hh Hn. rewrite (C56_run e c l h He Hc Hl Hh), cipher_run_ok; [|exact He | exact Hc |].
  2:{ clear -Hh. induction Hh as [|o h Ho Hh IH]; cbn [map]; constructor; [|exact IH]. destruct o; cbn [untyped call_ok]; try exact I. exact Ho. }
  rewrite Hl.
  assert (G : forall P, texpect (trun_spec (cipher_ks c) l (cipher_strict e c) (e_usz e) P h)
    = do rs <- expect (run_spec (cipher_ks c) (Some l) (cipher_strict e c) P (map (untyped (e_usz e)) h)); Ok (retype h rs)); [|apply G].
  assert (Hb : (l_bs l = 64)%N) by (clear -Hl; destruct c as [[] | | | | | | | ]; cbn [cipher_lim] in Hl; try discriminate Hl; injection Hl as <-; reflexivity).
  assert (Hu : (6 <= e_usz e <= 64)%N) by (destruct He as [-> | [-> | ->]]; lia).
  clear He Hc Hl. generalize (cipher_ks c) (cipher_strict e c). intros ks strict.
  induction h as [|o h IH]; intros P; [reflexivity|]. inversion Hh as [|? ? Ho Hh']; subst. inversion Hn as [|? ? Hn0 Hn']; subst.
  specialize (IH Hh' Hn'). cbn [map trun_spec run_spec].
  assert (E : tstep_spec ks l strict (e_usz e) P o
    = match step_spec ks (Some l) strict P (untyped (e_usz e) o) with None => None | Some (r, P') => Some (retyped o r, P') end).
  { destruct o as [o|t z|t]; cbn [tstep_spec untyped].
    - destruct (step_spec ks (Some l) strict P o) as [[r P']|]; [|reflexivity]. reflexivity.
    - rewrite Hb. destruct (Z.leb_spec z (- Z.of_N 64)); [lia|]. destruct (Z.ltb_spec z 0); [lia|].
      destruct (step_spec ks (Some l) strict P (Seek (Z.to_N z))) as [[r P']|]; [|reflexivity]. reflexivity.
    - cbn [step_spec]. cbv zeta. set (q := (P mod l_period l)%N). set (up := ((q + l_bs l - 1) / l_bs l * l_bs l)%N). clearbody q up.
      assert (Hm : 0 <= ty_max (e_usz e) t) by (clear IH; destruct t; cbn [ty_max]; lia).
      destruct (q <=? l_usable l)%N; cbn [andb].
      + destruct (Z.leb_spec (Z.of_N up) (ty_max (e_usz e) t)); destruct (N.ltb_spec up (Z.to_N (ty_max (e_usz e) t + 1))); try lia; reflexivity.
      + destruct t; [contradiction|..]; reflexivity. }
  rewrite E. destruct (step_spec ks (Some l) strict P (untyped (e_usz e) o)) as [[r P']|]; [|reflexivity].
  specialize (IH P').
  destruct (trun_spec ks l strict (e_usz e) P' h), (run_spec ks (Some l) strict P' (map (untyped (e_usz e)) h)) as [[rs P'']|];
    cbn [texpect expect bind] in *; try discriminate; [|reflexivity].
  injection IH as ->. reflexivity.
Qed.
Print Assumptions C56_untyped.

(** Expected, and refuted: a reported position is never negative.  Seek [k] bytes into the
    final block (accepted; Salsa: in builds without overflow checks) and ask for the
    position as [i32]: the answer is [k - 64]; asked as any unsigned type, an error. *)
Theorem C56_position_nonnegative_refuted e c l k : env_ok e -> cipher_ok c -> cipher_lim c = Some l -> cipher_strict e c = false ->
  0 < k < 64 ->
  typed_run e c [TSeek U128 (Z.of_N (l_usable l) + k); TPos I32; TPos U32; TPos U64; TPos U128; TPos Usize]
  = Ok [Ans Done; At (k - 64); Ans Err; Ans Err; Ans Err; Ans Err].
Proof.
  intros He Hc Hl Hst Hk.
  assert (Hlb : (l_bs l = 64 /\ 2 ^ 32 <= l_blocks l <= 2 ^ 64)%N)
    by (clear -Hl; destruct c as [[] | | | | | | | ]; cbn [cipher_lim] in Hl; try discriminate Hl; injection Hl as <-; cbn; lia).
  destruct Hlb as [Hb HB].
  assert (Hus : l_usable l = (64 * (l_blocks l - 1))%N) by (unfold l_usable; rewrite Hb; reflexivity).
  assert (Hpe : l_period l = (64 * l_blocks l)%N) by (unfold l_period; rewrite Hb; reflexivity).
  rewrite (C56_run e c l) by (try assumption; repeat (apply Forall_cons; [cbn [tcall_ok ty_min ty_max]; first [exact I | lia]|]); apply Forall_nil).
  set (q := (l_usable l + Z.to_N k)%N).
  assert (Eq : Z.to_N (Z.of_N (l_usable l) + k) = q) by (unfold q; lia).
  assert (Em : (q mod l_period l = q)%N) by (apply N.mod_small; unfold q; lia).
  assert (Hgt : (q <=? l_usable l)%N = false) by (apply N.leb_gt; unfold q; lia).
  cbn [trun_spec tstep_spec]. rewrite Hst, Hb.
  destruct (Z.leb_spec (Z.of_N (l_usable l) + k) (- Z.of_N 64)); [lia|].
  destruct (Z.ltb_spec (Z.of_N (l_usable l) + k) 0); [lia|].
  rewrite Eq. cbn [step_spec]. rewrite Hb. destruct (N.ltb_spec (q / 64) (l_blocks l)); [|unfold q in *; lia].
  cbn [andb]. cbv zeta. do 5 (rewrite Em, Hgt; cbv beta iota). cbn [texpect].
  assert (Ek : Z.of_N q - Z.of_N (l_period l) = k - 64) by (unfold q; lia). rewrite Ek. reflexivity.
Qed.
Print Assumptions C56_position_nonnegative_refuted.
(** What holds: if no seek goes past the start of the final block, every reported position
    is non-negative and within the usable keystream. *)
Theorem C56_position_nonnegative_partial e c l h rs : env_ok e -> cipher_ok c -> cipher_lim c = Some l -> Forall (tcall_ok e) h ->
  Forall (fun o => match o with TSeek _ z => z <= Z.of_N (l_usable l) | Plain (Seek q) => (q <= l_usable l)%N | _ => True end) h ->
  typed_run e c h = Ok rs ->
  Forall (fun r => match r with At z => 0 <= z <= Z.of_N (l_usable l) | _ => True end) rs.
Proof.
  intros He Hc Hl Hh Hs Hr. rewrite (C56_run e c l h He Hc Hl Hh) in Hr.
  assert (Hlb : (l_bs l = 64 /\ 2 ^ 32 <= l_blocks l <= 2 ^ 64)%N)
    by (clear -Hl; destruct c as [[] | | | | | | | ]; cbn [cipher_lim] in Hl; try discriminate Hl; injection Hl as <-; cbn; lia).
  destruct Hlb as [Hb HB].
  assert (Hus : l_usable l = (64 * (l_blocks l - 1))%N) by (unfold l_usable; rewrite Hb; reflexivity).
  assert (Hpe : l_period l = (64 * l_blocks l)%N) by (unfold l_period; rewrite Hb; reflexivity).
  revert Hr. generalize (cipher_ks c) (cipher_strict e c). intros ks strict. clear Hc Hl.
  assert (H0 : (0 <= l_usable l)%N) by lia. revert H0. generalize 0%N. revert rs.
  assert (Hplain : forall P o r P', (P <= l_usable l)%N -> match o with Seek q => (q <= l_usable l)%N | _ => True end ->
    step_spec ks (Some l) strict P o = Some (r, P') -> (P' <= l_usable l)%N).
  { intros P o r P' HP Ho E.
    assert (Hg : forall n, granted l P n = true -> (P + n <= l_usable l)%N).
    { intros n Hg. unfold granted in Hg. rewrite N.mod_small in Hg by lia. destruct (N.leb_spec P (l_usable l)); [|lia].
      apply N.leb_le in Hg. exact Hg. }
    destruct o as [d|d m|n|q|t]; cbn [step_spec] in E.
    - destruct (granted l P (N.of_nat (List.length d))) eqn:G; injection E as <- <-; [apply Hg; exact G | exact HP].
    - destruct (List.length d =? m)%nat; [|injection E as <- <-; exact HP].
      destruct (granted l P (N.of_nat (List.length d))) eqn:G; injection E as <- <-; [apply Hg; exact G | exact HP].
    - destruct (granted l P (N.of_nat n)) eqn:G; injection E as <- <-; [apply Hg; exact G | exact HP].
    - destruct (q / l_bs l <? l_blocks l)%N; [|injection E as <- <-; exact HP].
      destruct (strict && (l_usable l <? q)%N); [discriminate|]. injection E as <- <-. exact Ho.
    - destruct ((P mod l_period l <=? l_usable l)%N && _); injection E as <- <-; exact HP. }
  induction h as [|o h IH]; intros rs P HP Hr; cbn [trun_spec texpect] in Hr; [injection Hr as <-; constructor|].
  inversion Hh as [|? ? Ho Hh']; subst. inversion Hs as [|? ? Hs0 Hs']; subst.
  destruct (tstep_spec ks l strict (e_usz e) P o) as [[r P']|] eqn:E; [|discriminate].
  assert (HP' : (P' <= l_usable l)%N /\ match r with At z => 0 <= z <= Z.of_N (l_usable l) | _ => True end).
  { destruct o as [o|t z|t]; cbn [tstep_spec] in E.
    - destruct (step_spec ks (Some l) strict P o) as [[r0 P0]|] eqn:E0; [|discriminate]. injection E as <- <-.
      split; [|exact I]. apply (Hplain P o r0 P0 HP); [|exact E0]. exact Hs0.
    - destruct (z <=? - Z.of_N (l_bs l)); [injection E as <- <-; split; [exact HP | exact I]|].
      destruct (Z.ltb_spec z 0); [discriminate|].
      destruct (step_spec ks (Some l) strict P (Seek (Z.to_N z))) as [[r0 P0]|] eqn:E0; [|discriminate]. injection E as <- <-.
      split; [|exact I]. apply (Hplain P (Seek (Z.to_N z)) r0 P0 HP); [|exact E0]. lia.
    - cbv zeta in E. rewrite N.mod_small in E by lia. destruct (N.leb_spec P (l_usable l)); [|lia].
      destruct (Z.of_N _ <=? _); injection E as <- <-; (split; [exact HP|]); [lia | exact I]. }
  destruct HP' as [HP' Hz].
  destruct (trun_spec ks l strict (e_usz e) P' h) as [rs'|] eqn:E'; [|discriminate]. injection Hr as <-.
  constructor; [exact Hz|]. apply (IH Hh' Hs' rs' P' HP'). rewrite E'. reflexivity.
Qed.
Print Assumptions C56_position_nonnegative_partial.

(** ** The hypotheses are satisfiable *)
Definition c56_env : env :=
  {| e_cfg := {| c_target := X86; c_backend := NoCfg; c_avx512 := false |};
     e_cpu := {| has_avx512 := false; has_avx2 := true; has_sse2 := true |}; e_usz := 64; e_ck := true |}.
Definition c56_cipher : cipher := CChaCha Ietf 10 (repeat 7%N 32) (repeat 9%N 12).
Example C56_satisfiable :
  env_ok c56_env /\ cipher_ok c56_cipher /\ cipher_lim c56_cipher = Some {| l_bs := 64; l_blocks := 2 ^ 32 |}
  /\ typed_run c56_env c56_cipher
       [TSeek I32 100; TPos I32; TPos Usize; TSeek I32 (-64); TPos U32; TSeek U64 (2 ^ 31 + 1); TPos I32; TPos U32; TSeek U128 (2 ^ 100)]
     = Ok [Ans Done; At 100; At 100; Ans Err; At 100; Ans Done; Ans Err; At (2 ^ 31 + 1); Ans Err]
  /\ typed_run c56_env c56_cipher [TSeek I32 (-1)] = Panic.
Proof.
  assert (He : env_ok c56_env) by (right; right; reflexivity).
  assert (Hc : cipher_ok c56_cipher) by (cbn; repeat constructor).
  split; [exact He|]. split; [exact Hc|]. split; [reflexivity|].
  split; (rewrite (C56_run _ _ _ _ He Hc eq_refl); [reflexivity | repeat (apply Forall_cons; [cbn [tcall_ok ty_min ty_max]; first [exact I | lia]|]); apply Forall_nil]).
Qed.

(** The five types are Rust's. *)
Theorem C56_types usz :
  (ty_min I32 = -2147483648 /\ ty_max usz I32 = 2147483647)
  /\ (ty_min U32 = 0 /\ ty_max usz U32 = 4294967295)
  /\ (ty_min U64 = 0 /\ ty_max usz U64 = 18446744073709551615)
  /\ (ty_min U128 = 0 /\ ty_max usz U128 = 340282366920938463463374607431768211455)
  /\ (ty_min Usize = 0 /\ ty_max 16 Usize = 65535 /\ ty_max 32 Usize = 4294967295 /\ ty_max 64 Usize = 18446744073709551615).
Proof. repeat split; vm_compute; reflexivity. Qed.
Print Assumptions C56_types.
