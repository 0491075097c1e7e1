(** C84: what the answers of a stream cipher tell about the messages, apart from its keystream. *)
From Verif Require Import SpecChaCha SpecSalsa SpecRabbit SpecHC256 SpecRC4 SpecStream StreamLemmas CipherWrapper Ciphers CiphersProofs PropCommon PropertiesStream.
From Verif Require Import ChaChaCore.
From Verif Require WrapperProofs.
From Coq Require Import Arith NArith List Bool Lia.
Import ListNotations.
Local Open Scope N_scope.

(** Positions of a seekable cipher are counted around the period of its block counter. *)
Definition circle (lim : option limits) (p : N) : N := match lim with None => p | Some l => p mod l_period l end.
(** The spots [p], [p + 1], ... *)
Definition spots (lim : option limits) (p : N) (n : nat) : list N := map (fun i => circle lim (p + N.of_nat i)) (seq 0 n).
(** What a caller has spent: for every output byte, the keystream spot it used and the message
    byte that went in ([write_keystream]: zero). *)
Fixpoint spent (lim : option limits) (p : N) (h : list op) (rs : list ret) : list (N * N) :=
  match h, rs with
  | Apply d :: h', Bytes _ :: rs' | ApplyB2b d _ :: h', Bytes _ :: rs' =>
      combine (spots lim p (length d)) d ++ spent lim (p + N.of_nat (length d)) h' rs'
  | Write n :: h', Bytes _ :: rs' => combine (spots lim p n) (repeat 0 n) ++ spent lim (p + N.of_nat n) h' rs'
  | Seek q :: h', Done :: rs' => spent lim q h' rs'
  | _ :: h', _ :: rs' => spent lim p h' rs'
  | _, _ => []
  end.
(** The same calls, with messages of the same lengths. *)
Definition like (a b : op) : Prop :=
  match a, b with
  | Apply d, Apply d' => length d = length d'
  | ApplyB2b d m, ApplyB2b d' m' => length d = length d' /\ m = m'
  | Write n, Write n' => n = n'
  | Seek q, Seek q' => q = q'
  | CurPos t, CurPos t' => t = t'
  | _, _ => False
  end.
Definition same_shape (h h' : list op) : Prop := Forall2 like h h'.
(** A keystream of the kind of [c]'s: bytes, repeating with the block counter. *)
Definition keystream_like (c : cipher) (ks : N -> N) : Prop :=
  (forall p, ks p < 256) /\ forall p, ks p = ks (circle (cipher_lim c) p).
(** The answers a cipher of [c]'s type would give if its keystream were [ks]; C17: with
    [cipher_ks c] these are the answers of the code. *)
Definition answers (e : env) (c : cipher) (ks : N -> N) (h : list op) : Res (list ret) :=
  match run_spec ks (cipher_lim c) (cipher_strict e c) 0 h with Some (rs, _) => Ok rs | None => Panic end.
(** A use of one spot by both histories: spot, byte of the first, byte of the second. *)
Definition both (c : cipher) (rs : list ret) (h h' : list op) : list (N * N * N) :=
  combine (spent (cipher_lim c) 0 h rs) (map snd (spent (cipher_lim c) 0 h' rs)).

Lemma combine_map_l {A B C} (f : A -> C) (l : list A) (m : list B) : combine (map f l) m = map (fun x => (f (fst x), snd x)) (combine l m).
Proof. revert m. induction l as [|a l IH]; intros [|b m]; cbn; try reflexivity. rewrite IH. reflexivity. Qed.
Lemma combine_swap {A B} (l : list A) (m : list B) : combine m l = map (fun x => (snd x, fst x)) (combine l m).
Proof. revert m. induction l as [|a l IH]; intros [|b m]; cbn; try reflexivity. rewrite IH. reflexivity. Qed.
Lemma ks_xor_spots lim ks p d : (forall q, ks q = ks (circle lim q)) ->
  ks_xor ks p d = map (fun x => N.lxor (snd x) (ks (fst x))) (combine (spots lim p (length d)) d).
Proof.
  intros P. unfold ks_xor, ks_range, spots. rewrite !combine_map_l, map_map. rewrite combine_swap, combine_map_l, !map_map.
  apply map_ext. intros [i b]. cbn [fst snd]. rewrite <- P. reflexivity.
Qed.
Lemma ks_range_spots lim ks p n : (forall q, ks q = ks (circle lim q)) ->
  ks_range ks p n = map (fun x => N.lxor (snd x) (ks (fst x))) (combine (spots lim p n) (repeat 0 n)).
Proof.
  intros P. unfold ks_range, spots. rewrite combine_map_l, map_map. cbn [fst snd].
  assert (G : forall a k, map (fun i => ks (p + N.of_nat i)) (seq a k) =
     map (fun x => N.lxor (snd x) (ks (circle lim (p + N.of_nat (fst x))))) (combine (seq a k) (repeat 0 k))).
  { intros a k. revert a. induction k as [|k IH]; intros a; [reflexivity|]. cbn [seq repeat combine map fst snd]. rewrite IH, N.lxor_0_l, <- P. reflexivity. }
  apply G.
Qed.
Lemma spots_length lim p n : length (spots lim p n) = n.
Proof. unfold spots. rewrite map_length, seq_length. reflexivity. Qed.

(** The bytes a history puts out under [ks]. *)
Definition out (ks : N -> N) (l : list (N * N)) : list N := map (fun x => N.lxor (snd x) (ks (fst x))) l.
Lemma app_same {A} (a b c d : list A) : length a = length c -> a ++ b = c ++ d <-> a = c /\ b = d.
Proof.
  intros L. split; [|intros [-> ->]; reflexivity]. revert c L. induction a as [|x a IH]; intros [|y c] L E; try discriminate L.
  - split; [reflexivity|exact E].
  - cbn in *. injection E as -> E. destruct (IH c ltac:(lia) E) as [-> ->]. split; reflexivity.
Qed.

Section Two.
  Context (lim : option limits) (strict : bool) (ks ks' : N -> N)
    (P : forall q, ks q = ks (circle lim q)) (P' : forall q, ks' q = ks' (circle lim q)).
  Lemma cons_iff (r r' : ret) rs rs' : r' :: rs' = r :: rs <-> r' = r /\ rs' = rs.
  Proof. split; [intros E; injection E; auto | intros [-> ->]; reflexivity]. Qed.
  Lemma bytes_iff (l l' : list N) : Bytes l' = Bytes l <-> l' = l.
  Proof. split; [congruence | intros ->; reflexivity]. Qed.
  Lemma two h : forall h' p rs p1, same_shape h h' -> run_spec ks lim strict p h = Some (rs, p1) ->
    exists rs', run_spec ks' lim strict p h' = Some (rs', p1)
    /\ map fst (spent lim p h' rs) = map fst (spent lim p h rs)
    /\ (rs' = rs <-> out ks' (spent lim p h' rs) = out ks (spent lim p h rs)).
  Proof.
    induction h as [|o h IH]; intros h' p rs p1 Hs E; inversion Hs as [|? o' ? h2 Ho Hs']; subst; clear Hs; cbn [run_spec] in E.
    - injection E as <- <-. exists []. cbn. tauto.
    - destruct (step_spec ks lim strict p o) as [[r p2]|] eqn:E1; [|discriminate].
      destruct (run_spec ks lim strict p2 h) as [[rs2 p3]|] eqn:E2; [|discriminate]. injection E as <- <-.
      destruct (IH h2 p2 rs2 p3 Hs' E2) as (rs' & R & F & Q). clear IH.
      assert (B : forall x l (k : N -> N), out k (x ++ l) = out k x ++ out k l) by (intros; apply map_app).
      assert (G : forall d d', length d = length d' -> out ks' (combine (spots lim p (length d')) d') = ks_xor ks' p d'
         /\ out ks (combine (spots lim p (length d)) d) = ks_xor ks p d
         /\ length (ks_xor ks' p d') = length (ks_xor ks p d)
         /\ map fst (combine (spots lim p (length d')) d') = map fst (combine (spots lim p (length d)) d)).
      { intros d d' L. split; [symmetry; apply ks_xor_spots, P'|]. split; [symmetry; apply ks_xor_spots, P|].
        split; [rewrite !ks_xor_length; congruence|]. rewrite <- L. 
        assert (M : forall (a : list N) (b : list N), length a = length b -> map fst (combine a b) = a).
        { induction a as [|x a IHa]; intros [|y b] Hl; try discriminate Hl; [reflexivity|]. cbn. rewrite IHa; [reflexivity|]. cbn in Hl. lia. }
        rewrite !M; [reflexivity| |]; rewrite spots_length; congruence. }
      destruct o as [d | d m | n | q | t], o' as [d' | d' m' | n' | q' | t']; cbn [like] in Ho; try contradiction; cbn [step_spec] in E1; cbn [run_spec step_spec].
      + rewrite <- Ho. destruct (match lim with Some l => granted l p (N.of_nat (length d)) | None => true end);
          apply (f_equal (fun x => match x with Some y => y | None => (Err, 0) end)) in E1; injection E1 as <- <-.
        * rewrite R. eexists. split; [reflexivity|]. cbn [spent]. destruct (G d d' Ho) as (G1 & G2 & G3 & G4). rewrite !map_app, !B, G1, G2, G4, <- Ho, F.
          split; [reflexivity|]. rewrite cons_iff, bytes_iff, app_same, Q, Ho by exact G3. tauto.
        * rewrite R. eexists. split; [reflexivity|]. cbn [spent]. split; [exact F|]. rewrite cons_iff, Q. tauto.
      + destruct Ho as [Ho <-]. rewrite <- Ho. destruct (length d =? m)%nat; [destruct (match lim with Some l => granted l p (N.of_nat (length d)) | None => true end)|];
          apply (f_equal (fun x => match x with Some y => y | None => (Err, 0) end)) in E1; injection E1 as <- <-.
        * rewrite R. eexists. split; [reflexivity|]. cbn [spent]. destruct (G d d' Ho) as (G1 & G2 & G3 & G4). rewrite !map_app, !B, G1, G2, G4, <- Ho, F.
          split; [reflexivity|]. rewrite cons_iff, bytes_iff, app_same, Q, Ho by exact G3. tauto.
        * rewrite R. eexists. split; [reflexivity|]. cbn [spent]. split; [exact F|]. rewrite cons_iff, Q. tauto.
        * rewrite R. eexists. split; [reflexivity|]. cbn [spent]. split; [exact F|]. rewrite cons_iff, Q. tauto.
      + subst n'. destruct (match lim with Some l => granted l p (N.of_nat n) | None => true end);
          apply (f_equal (fun x => match x with Some y => y | None => (Err, 0) end)) in E1; injection E1 as <- <-.
        * rewrite R. eexists. split; [reflexivity|]. cbn [spent]. rewrite !map_app, !B, F. split; [reflexivity|].
          rewrite cons_iff, bytes_iff, app_same, Q. unfold out. rewrite <- (ks_range_spots lim ks p n P), <- (ks_range_spots lim ks' p n P'). tauto.
          unfold out. rewrite !map_length. reflexivity.
        * rewrite R. eexists. split; [reflexivity|]. cbn [spent]. split; [exact F|]. rewrite cons_iff, Q. tauto.
      + subst q'. destruct lim as [l|]; [destruct (q / l_bs l <? l_blocks l); [destruct (strict && (l_usable l <? q)); [discriminate|]|]|];
          apply (f_equal (fun x => match x with Some y => y | None => (Err, 0) end)) in E1; injection E1 as <- <-;
          (rewrite R; eexists; split; [reflexivity|]; cbn [spent]; split; [exact F|]; rewrite cons_iff, Q; tauto).
      + subst t'. destruct lim as [l|]; [destruct ((p mod l_period l <=? l_usable l) && ((p mod l_period l + l_bs l - 1) / l_bs l * l_bs l <? t))|];
          apply (f_equal (fun x => match x with Some y => y | None => (Err, 0) end)) in E1; injection E1 as <- <-;
          (rewrite R; eexists; split; [reflexivity|]; cbn [spent]; split; [exact F|]; rewrite cons_iff, Q; tauto).
  Qed.
End Two.

(** Answers of the same kind. *)
Definition tag (r r' : ret) : Prop :=
  match r, r' with
  | Bytes _, Bytes _ | Done, Done | Err, Err => True
  | Pos a, Pos b => a = b
  | _, _ => False
  end.
Lemma step_tag lim strict ks ks' p o o' : like o o' ->
  match step_spec ks lim strict p o, step_spec ks' lim strict p o' with
  | Some (r, q), Some (r', q') => tag r r' /\ q = q'
  | None, None => True
  | _, _ => False
  end.
Proof.
  intros L. destruct o as [d | d m | n | q | t], o' as [d' | d' m' | n' | q' | t']; cbn [like] in L; try contradiction; cbn [step_spec].
  - rewrite L. destruct (match lim with Some l => granted l p (N.of_nat (length d')) | None => true end); cbn; auto.
  - destruct L as [L ->]. rewrite L. destruct (length d' =? m')%nat; [destruct (match lim with Some l => granted l p (N.of_nat (length d')) | None => true end)|]; cbn; auto.
  - subst. destruct (match lim with Some l => granted l p (N.of_nat n') | None => true end); cbn; auto.
  - subst. destruct lim as [l|]; [destruct (q' / l_bs l <? l_blocks l); [destruct (strict && (l_usable l <? q'))|]|]; cbn; auto.
  - subst. destruct lim as [l|]; [destruct ((p mod l_period l <=? l_usable l) && ((p mod l_period l + l_bs l - 1) / l_bs l * l_bs l <? t'))|]; cbn; auto.
Qed.
Lemma run_tag lim strict ks ks' h : forall h' p, same_shape h h' ->
  match run_spec ks lim strict p h, run_spec ks' lim strict p h' with
  | Some (rs, q), Some (rs', q') => Forall2 tag rs rs' /\ q = q'
  | None, None => True
  | _, _ => False
  end.
Proof.
  induction h as [|o h IH]; intros h' p S; inversion S as [|? o' ? h2 L S']; subst; cbn [run_spec]; [split; constructor|].
  pose proof (step_tag lim strict ks ks' p o o' L) as T.
  destruct (step_spec ks lim strict p o) as [[r q]|], (step_spec ks' lim strict p o') as [[r' q']|]; try contradiction; [|exact I].
  destruct T as [T <-]. specialize (IH h2 q S').
  destruct (run_spec ks lim strict q h) as [[rs z]|], (run_spec ks' lim strict q h2) as [[rs' z']|]; try contradiction; [|exact I].
  destruct IH as [I1 <-]. split; [constructor; assumption|reflexivity].
Qed.
Lemma spent_tag lim h : forall p rs rs', Forall2 tag rs rs' -> spent lim p h rs' = spent lim p h rs.
Proof.
  induction h as [|o h IH]; intros p rs rs' T; [destruct T; reflexivity|].
  destruct T as [|r r' rs rs' T1 T]; [reflexivity|].
  destruct o, r, r'; cbn [tag] in T1; try contradiction; cbn [spent]; rewrite ?(IH _ _ _ T); reflexivity.
Qed.
Lemma same_shape_refl h : same_shape h h.
Proof. induction h as [|o h IH]; constructor; [|exact IH]. destruct o; cbn; auto. Qed.

(** ** Changing the keystream *)
Definition shift (lim : option limits) (t : list (N * N * N)) (ks : N -> N) (p : N) : N :=
  match find (fun x => fst (fst x) =? circle lim p) t with
  | Some (_, a, a') => N.lxor (ks p) (N.lxor a a')
  | None => ks p
  end.
Lemma shift_twice lim t ks p : shift lim t (shift lim t ks) p = ks p.
Proof.
  unfold shift. destruct (find _ t) as [[[q a] a']|]; [|reflexivity].
  rewrite N.lxor_assoc, N.lxor_nilpotent. apply N.lxor_0_r.
Qed.
Lemma circle_twice lim p : circle lim (circle lim p) = circle lim p.
Proof.
  destruct lim as [l|]; [|reflexivity]. cbn [circle]. destruct (N.eq_dec (l_period l) 0) as [->|H]; [|apply N.mod_mod; exact H].
  destruct p; reflexivity.
Qed.
Lemma shift_period lim t ks : (forall p, ks p = ks (circle lim p)) -> forall p, shift lim t ks p = shift lim t ks (circle lim p).
Proof.
  intros P p. unfold shift. rewrite circle_twice. destruct (find _ t) as [[[q a] a']|]; rewrite <- P; reflexivity.
Qed.
Lemma lxor_lt256 a b : a < 256 -> b < 256 -> N.lxor a b < 256.
Proof.
  intros Ha Hb. destruct (N.eq_dec (N.lxor a b) 0) as [->|H]; [reflexivity|].
  change 256 with (2 ^ 8). apply N.log2_lt_pow2; [lia|]. eapply N.le_lt_trans; [apply N.log2_lxor|].
  apply N.max_lub_lt.
  - destruct (N.eq_dec a 0) as [->|]; [reflexivity|]. apply N.log2_lt_pow2; [lia|exact Ha].
  - destruct (N.eq_dec b 0) as [->|]; [reflexivity|]. apply N.log2_lt_pow2; [lia|exact Hb].
Qed.

(** Messages are bytes. *)
Definition op_bytes (o : op) : Prop := match o with Apply d | ApplyB2b d _ => Forall (fun b => b < 256) d | _ => True end.
Lemma spent_bytes lim h : forall p rs, Forall op_bytes h -> Forall (fun x => snd x < 256) (spent lim p h rs).
Proof.
  assert (C : forall (s d : list N), Forall (fun b => b < 256) d -> Forall (fun x => snd x < 256) (combine s d)).
  { induction s as [|a s IH]; intros [|b d] F; cbn; try constructor; inversion F; subst; [assumption|apply IH; assumption]. }
  induction h as [|o h IH]; intros p rs F; [constructor|]. inversion F as [|? ? Fo F']; subst.
  destruct rs as [|r rs]; [destruct o; constructor|].
  destruct o, r; cbn [spent op_bytes] in *; try (apply IH; exact F'); apply Forall_app; (split; [apply C|apply IH; exact F']); try exact Fo.
  apply Forall_forall. intros x Hx. apply repeat_spec in Hx. subst x. reflexivity.
Qed.

(** What one pair of equal bytes means. *)
Lemma out_iff ks ks' l : forall l', map fst l' = map fst l ->
  out ks' l' = out ks l <-> forall q a a', In (q, a, a') (combine l (map snd l')) -> N.lxor a' (ks' q) = N.lxor a (ks q).
Proof.
  induction l as [|[q a] l IH]; intros [|[q' a'] l'] F; cbn in F; try discriminate.
  - cbn. split; [intros _ ? ? ? []|reflexivity].
  - injection F as -> F. cbn [out map combine fst snd]. fold (out ks l) (out ks' l'). split.
    + intros E. injection E as E1 E2. intros x b b' [I|I].
      * injection I as <- <- <-. exact E1.
      * apply (proj1 (IH l' F) E2). exact I.
    + intros H. rewrite (H q a a' (or_introl eq_refl)). f_equal. apply (IH l' F). intros x b b' I. apply H. right. exact I.
Qed.
Definition consistent (t : list (N * N * N)) : Prop :=
  forall q a a' b b', In (q, a, a') t -> In (q, b, b') t -> N.lxor a b = N.lxor a' b'.
Lemma xor4 a b c d : N.lxor a c = N.lxor b d <-> N.lxor a b = N.lxor c d.
Proof.
  assert (G : forall a b c d, N.lxor a c = N.lxor b d -> N.lxor a b = N.lxor c d).
  { clear. intros a b c d E.
    replace (N.lxor a b) with (N.lxor (N.lxor a c) (N.lxor c b)) by (rewrite N.lxor_assoc, <- (N.lxor_assoc c c b), N.lxor_nilpotent, N.lxor_0_l; reflexivity).
    rewrite E, (N.lxor_comm b d), (N.lxor_comm c b), N.lxor_assoc, <- (N.lxor_assoc b b c), N.lxor_nilpotent, N.lxor_0_l. apply N.lxor_comm. }
  split; apply G.
Qed.
Lemma shift_ok lim t ks q a a' : consistent t -> circle lim q = q -> In (q, a, a') t -> N.lxor a' (shift lim t ks q) = N.lxor a (ks q).
Proof.
  intros C Hq I. unfold shift. rewrite Hq. destruct (find (fun x => fst (fst x) =? q) t) as [[[q0 b] b']|] eqn:F.
  - apply find_some in F as [F1 F2]. cbn in F2. apply N.eqb_eq in F2. subst q0.
    assert (E := C q a a' b b' I F1). apply xor4 in E.
    rewrite <- E, (N.lxor_comm a a'), (N.lxor_comm (ks q)), <- !N.lxor_assoc, N.lxor_nilpotent, N.lxor_0_l. reflexivity.
  - exfalso. apply (find_none _ _ F) in I. cbn in I. rewrite N.eqb_refl in I. discriminate.
Qed.
Lemma spent_circle lim h : forall p rs q m, In (q, m) (spent lim p h rs) -> circle lim q = q.
Proof.
  assert (S : forall p n (d : list N) q m, In (q, m) (combine (spots lim p n) d) -> circle lim q = q).
  { intros p n d q m I. apply in_combine_l in I. unfold spots in I. apply in_map_iff in I as (i & <- & _). apply circle_twice. }
  induction h as [|o h IH]; intros p rs q m I; [destruct rs; destruct I|].
  destruct rs as [|r rs]; [destruct o; destruct I|].
  destruct o, r; cbn [spent] in I; try (apply (IH _ _ _ _ I)); apply in_app_or in I as [I|I]; try (apply (IH _ _ _ _ I)); apply (S _ _ _ _ _ I).
Qed.

(** ** The real keystreams *)
Lemma rc_byte_lt key n : rc_byte key n < 256.
Proof.
  assert (Sw : forall P a b, (forall x, x < 256 -> P x < 256) -> a < 256 -> b < 256 -> forall x, x < 256 -> rc_swap P a b x < 256).
  { intros P a b H Ha Hb x Hx. unfold rc_swap. destruct (x =? a); [apply H; exact Hb|]. destruct (x =? b); apply H; assumption. }
  assert (K : forall m, (m <= 256)%nat -> snd (rc_ksa key m) < 256 /\ forall x, x < 256 -> fst (rc_ksa key m) x < 256).
  { induction m as [|m IH]; intros Hm; cbn [rc_ksa]; [split; [reflexivity|intros x Hx; exact Hx]|].
    destruct (IH ltac:(lia)) as [_ I2]. destruct (rc_ksa key m) as [P j]. cbn [fst snd] in *.
    split; [apply N.mod_lt; discriminate|]. apply Sw; [exact I2|lia|apply N.mod_lt; discriminate]. }
  assert (G : forall m, let '(P, i, j) := Nat.iter m rc_step (rc_init key) in i < 256 /\ j < 256 /\ forall x, x < 256 -> P x < 256).
  { induction m as [|m IH]; [cbn [Nat.iter nat_rect rc_init]; split; [reflexivity|]; split; [reflexivity|]; apply (K 256%nat); reflexivity|].
    cbn [Nat.iter nat_rect]. change (nat_rect _ _ _ m) with (Nat.iter m rc_step (rc_init key)).
    destruct (Nat.iter m rc_step (rc_init key)) as [[P i] j]. destruct IH as (_ & _ & I3). cbn [rc_step].
    assert (M : forall x, x mod 256 < 256) by (intros x; apply N.mod_lt; discriminate).
    split; [apply M|]. split; [apply M|]. apply Sw; [exact I3|apply M|apply M]. }
  unfold rc_byte. specialize (G (S n)). destruct (Nat.iter (S n) rc_step (rc_init key)) as [[P i] j]. destruct G as (_ & _ & G).
  cbn [rc_out]. apply G. apply N.mod_lt. discriminate.
Qed.
Lemma nth_lt256 l i : Forall (fun b => b < 256) l -> nth i l 0 < 256.
Proof. intros F. destruct (nth_in_or_default i l 0) as [H | ->]; [|reflexivity]. rewrite Forall_forall in F. apply F. exact H. Qed.
Lemma serialize_lt s : Forall (fun b => b < 256) (sp_serialize s).
Proof.
  assert (M : forall x, x mod 2 ^ 8 < 256) by (intros x; apply N.mod_lt; discriminate).
  induction s as [|w s IH]; [constructor|]. cbn [sp_serialize flat_map app]. repeat (constructor; [apply M|]). exact IH.
Qed.
Lemma ss_bytes_lt s : Forall (fun b => b < 256) (ss_bytes s).
Proof.
  assert (M : forall x, x mod 2 ^ 8 < 256) by (intros x; apply N.mod_lt; discriminate).
  induction s as [|w s IH]; [constructor|]. cbn [ss_bytes flat_map app]. repeat (constructor; [apply M|]). exact IH.
Qed.
Lemma octets_lt n x : Forall (fun b => b < 256) (rb_octets n x).
Proof. unfold rb_octets. apply Forall_forall. intros b Hb. apply in_map_iff in Hb as (i & <- & _). apply N.mod_lt. discriminate. Qed.
Lemma real_bytes c p : cipher_ks c p < 256.
Proof.
  destruct c as [[] n key iv | n key iv | n key iv | n key iv | key iv | key | key iv | key]; cbn [cipher_ks]; unfold ks_of_blocks;
    try apply rc_byte_lt; apply nth_lt256; try apply octets_lt; try apply serialize_lt; apply ss_bytes_lt.
Qed.
Lemma real_period c p : cipher_ks c p = cipher_ks c (circle (cipher_lim c) p).
Proof.
  destruct (cipher_lim c) as [l|] eqn:L; [|reflexivity]. cbn [circle].
  assert (B : l_period l = 64 * l_blocks l) by (destruct c as [[] | | | | | | | ]; cbn in L; try discriminate; injection L as <-; reflexivity).
  assert (G : forall k j, cipher_ks c (l_period l * N.of_nat k + j) = cipher_ks c j).
  { induction k as [|k IH]; intros j; [rewrite N.mul_0_r; reflexivity|].
    replace (l_period l * N.of_nat (S k) + j) with (64 * l_blocks l + (l_period l * N.of_nat k + j)) by lia.
    rewrite (ks_period c l _ L). apply IH. }
  assert (Z : l_period l <> 0) by (destruct c as [[] | | | | | | | ]; cbn in L; try discriminate; injection L as <-; discriminate).
  rewrite (N.div_mod p (l_period l)) at 1 by exact Z. rewrite <- (N2Nat.id (p / l_period l)). apply G.
Qed.
Theorem C84_real e c h : env_ok e -> cipher_ok c -> Forall (call_ok e) h ->
  keystream_like c (cipher_ks c) /\ answers e c (cipher_ks c) h = cipher_run e c h.
Proof.
  intros He Hc Hh. split; [split; [apply real_bytes|apply real_period]|]. unfold answers. symmetry. apply C17_history; assumption.
Qed.
Print Assumptions C84_real.

(** ** The theorems *)
Lemma answers_spec e c ks h rs : answers e c ks h = Ok rs <-> exists p, run_spec ks (cipher_lim c) (cipher_strict e c) 0 h = Some (rs, p).
Proof.
  unfold answers. destruct (run_spec _ _ _ _ h) as [[r p]|]; split.
  - intros E. exists p. congruence.
  - intros [q E]. congruence.
  - discriminate.
  - intros [q E]. discriminate.
Qed.
Lemma both_in lim h h' rs q a a' : In (q, a, a') (combine (spent lim 0 h rs) (map snd (spent lim 0 h' rs))) -> circle lim q = q.
Proof. intros I. apply in_combine_l in I. eapply spent_circle. exact I. Qed.

(** Any two histories of the same shape: the answers of the first are possible answers of the
    second, for some keystream, if and only if the two histories agree on the XOR of the
    message bytes wherever a spot of the keystream was used twice. *)
Theorem C84_exact e c h h' rs : env_ok e -> cipher_ok c -> Forall (call_ok e) h ->
  Forall op_bytes h -> Forall op_bytes h' -> same_shape h h' -> cipher_run e c h = Ok rs ->
  (exists ks, keystream_like c ks /\ answers e c ks h' = Ok rs) <->
  (forall q a a' b b', In (q, a, a') (both c rs h h') -> In (q, b, b') (both c rs h h') -> N.lxor a b = N.lxor a' b').
Proof.
  intros He Hc Hh B B' S R. destruct (C84_real e c h He Hc Hh) as [[K1 K2] A]. rewrite <- A in R. clear A.
  apply answers_spec in R as [p R]. split.
  - intros (ks & [Q1 Q2] & A). apply answers_spec in A as [p' A].
    destruct (two (cipher_lim c) (cipher_strict e c) (cipher_ks c) ks K2 Q2 h h' 0 rs p S R) as (rs' & E & F & I).
    assert (X : rs' = rs) by congruence. apply I in X. rewrite (out_iff _ _ _ _ F) in X.
    intros q a a' b b' H1 H2. unfold both in *. pose proof (X _ _ _ H1) as Y1. pose proof (X _ _ _ H2) as Y2.
    apply xor4 in Y1. apply xor4 in Y2. apply xor4.
    rewrite (N.lxor_comm a a'), Y1, <- Y2. apply N.lxor_comm.
  - intros C. change (consistent (both c rs h h')) in C. set (t := both c rs h h') in *. exists (shift (cipher_lim c) t (cipher_ks c)).
    pose proof (shift_period (cipher_lim c) t (cipher_ks c) K2) as P. split; [split; [|exact P]|].
    + intros q. unfold shift. destruct (find _ t) as [[[z a] a']|] eqn:F; [|apply K1]. apply find_some in F as [F _].
      apply lxor_lt256; [apply K1|]. unfold t, both in F.
      pose proof (in_combine_l _ _ _ _ F) as L. pose proof (in_combine_r _ _ _ _ F) as L'.
      pose proof (spent_bytes (cipher_lim c) h 0 rs B) as W. rewrite Forall_forall in W. apply W in L.
      apply in_map_iff in L' as (y & <- & L'). pose proof (spent_bytes (cipher_lim c) h' 0 rs B') as W'. rewrite Forall_forall in W'. apply W' in L'.
      apply lxor_lt256; assumption.
    + destruct (two (cipher_lim c) (cipher_strict e c) (cipher_ks c) _ K2 P h h' 0 rs p S R) as (rs' & E & F & I).
      apply answers_spec. exists p. rewrite E. f_equal. f_equal. apply I. rewrite (out_iff _ _ _ _ F).
      intros q a a' H. apply shift_ok; [exact C|apply (both_in _ _ _ _ _ _ _ H)|exact H].
Qed.
Print Assumptions C84_exact.

(** One keystream for one: when the histories agree so, a self-inverse map on keystreams turns
    the answers of the first history under every keystream into those of the second, so that
    with all keystreams equally likely the two histories give the same answers equally often. *)
Theorem C84_bijection e c h h' rs : env_ok e -> cipher_ok c -> Forall (call_ok e) h ->
  Forall op_bytes h -> Forall op_bytes h' -> same_shape h h' -> cipher_run e c h = Ok rs ->
  (forall q a a' b b', In (q, a, a') (both c rs h h') -> In (q, b, b') (both c rs h h') -> N.lxor a b = N.lxor a' b') ->
  exists f : (N -> N) -> N -> N,
    (forall ks, keystream_like c ks -> keystream_like c (f ks) /\ answers e c (f ks) h' = answers e c ks h)
    /\ (forall ks p, f (f ks) p = ks p).
Proof.
  intros He Hc Hh B B' S R C. destruct (C84_real e c h He Hc Hh) as [[K1 K2] A]. rewrite <- A in R. clear A.
  apply answers_spec in R as [p R]. change (consistent (both c rs h h')) in C. set (t := both c rs h h') in *.
  exists (shift (cipher_lim c) t). split; [|intros ks q; apply shift_twice].
  intros ks [Q1 Q2]. pose proof (shift_period (cipher_lim c) t ks Q2) as P. split; [split; [|exact P]|].
  - intros q. unfold shift. destruct (find _ t) as [[[z a] a']|] eqn:F; [|apply Q1]. apply find_some in F as [F _].
    apply lxor_lt256; [apply Q1|]. unfold t, both in F.
    pose proof (in_combine_l _ _ _ _ F) as L. pose proof (in_combine_r _ _ _ _ F) as L'.
    pose proof (spent_bytes (cipher_lim c) h 0 rs B) as W. rewrite Forall_forall in W. apply W in L.
    apply in_map_iff in L' as (y & <- & L'). pose proof (spent_bytes (cipher_lim c) h' 0 rs B') as W'. rewrite Forall_forall in W'. apply W' in L'.
    apply lxor_lt256; assumption.
  - pose proof (run_tag (cipher_lim c) (cipher_strict e c) (cipher_ks c) ks h h 0 (same_shape_refl h)) as T. rewrite R in T.
    destruct (run_spec ks (cipher_lim c) (cipher_strict e c) 0 h) as [[rs2 p2]|] eqn:R2; [|contradiction]. destruct T as [T <-].
    destruct (two (cipher_lim c) (cipher_strict e c) ks _ Q2 P h h' 0 rs2 p S R2) as (rs' & E & F & I).
    unfold answers. rewrite R2, E. f_equal. apply I. rewrite (out_iff _ _ _ _ F).
    rewrite !(spent_tag _ _ _ _ _ T). intros q a a' H. apply shift_ok; [exact C|apply (both_in _ _ _ _ _ _ _ H)|exact H].
Qed.
Print Assumptions C84_bijection.

(** Without seeking no spot is used twice: nothing but the lengths of the messages is told. *)
Lemma spent_used lim strict ks h : forall p rs p1, run_spec ks lim strict p h = Some (rs, p1) -> Forall no_seek h ->
  map fst (spent lim p h rs) = map (circle lim) (used p rs).
Proof.
  assert (C : forall p n (d : list N), length d = n -> map fst (combine (spots lim p n) d) = spots lim p n).
  { intros p n d L. rewrite <- (spots_length lim p n) in L. revert d L. generalize (spots lim p n) as l. clear.
    induction l as [|a l IH]; intros [|b d] L; cbn in *; try discriminate; [reflexivity|]. rewrite IH; [reflexivity|lia]. }
  induction h as [|o h IH]; intros p rs p1 R F; cbn [run_spec] in R; [injection R as <- <-; reflexivity|].
  inversion F as [|? ? Fo F']; subst.
  destruct (step_spec ks lim strict p o) as [[r q]|] eqn:Es; [|discriminate].
  destruct (run_spec ks lim strict q h) as [[rs1 p2]|] eqn:E; [|discriminate]. injection R as <- <-.
  specialize (IH q rs1 p2 E F').
  destruct o as [d | d m | n | z | t]; cbn [step_spec] in Es; cbn [no_seek] in Fo; try contradiction.
  - destruct (match lim with Some l => granted l p (N.of_nat (length d)) | None => true end); injection Es as <- <-; cbn [spent used]; [|exact IH].
    rewrite !map_app, IH, (C _ _ _ eq_refl), ks_xor_length. f_equal. unfold spots. rewrite map_map. reflexivity.
  - destruct (length d =? m)%nat; [|injection Es as <- <-; exact IH].
    destruct (match lim with Some l => granted l p (N.of_nat (length d)) | None => true end); injection Es as <- <-; cbn [spent used]; [|exact IH].
    rewrite !map_app, IH, (C _ _ _ eq_refl), ks_xor_length. f_equal. unfold spots. rewrite map_map. reflexivity.
  - destruct (match lim with Some l => granted l p (N.of_nat n) | None => true end); injection Es as <- <-; cbn [spent used]; [|exact IH].
    rewrite !map_app, IH, (C _ _ _ (repeat_length 0 n)), WrapperProofs.ks_range_length. f_equal. unfold spots. rewrite map_map. reflexivity.
  - destruct lim as [l|]; [cbv zeta in Es; match type of Es with (if ?b then _ else _) = _ => destruct b end|]; injection Es as <- <-; exact IH.
Qed.
Lemma nodup_consistent t : NoDup (map (fun x : N * N * N => fst (fst x)) t) -> consistent t.
Proof.
  intros D q a a' b b' H1 H2.
  assert (E : (q, a, a') = (q, b, b')).
  { revert D H1 H2. induction t as [|x t IH]; intros D H1 H2; [destruct H1|]. cbn in D. inversion D as [|? ? N D']; subst.
    assert (V : forall u v, In (q, u, v) t -> In q (map (fun x => fst (fst x)) t)) by (intros u v I; apply in_map_iff; exists (q, u, v); split; [reflexivity|exact I]).
    destruct H1 as [-> | H1], H2 as [E | H2].
    - exact E.
    - exfalso. apply N. apply (V _ _ H2).
    - subst x. exfalso. apply N. apply (V _ _ H1).
    - apply IH; assumption. }
  injection E as <- <-. rewrite !N.lxor_nilpotent. reflexivity.
Qed.
Lemma nodup_front (a b : list N) : NoDup (a ++ b) -> NoDup a.
Proof.
  induction a as [|x a IH]; intros D; [constructor|]. cbn in D. inversion D as [|? ? Nx D']; subst.
  constructor; [intros I; apply Nx; apply in_or_app; left; exact I|apply IH; exact D'].
Qed.
Theorem C84_no_seek e c h h' rs : env_ok e -> cipher_ok c -> Forall (call_ok e) h ->
  Forall op_bytes h -> Forall op_bytes h' -> same_shape h h' -> Forall no_seek h -> cipher_run e c h = Ok rs ->
  exists f : (N -> N) -> N -> N,
    (forall ks, keystream_like c ks -> keystream_like c (f ks) /\ answers e c (f ks) h' = answers e c ks h)
    /\ (forall ks p, f (f ks) p = ks p).
Proof.
  intros He Hc Hh B B' S NS R. apply (C84_bijection e c h h' rs He Hc Hh B B' S R).
  apply nodup_consistent. destruct (C19_no_reuse e c h rs He Hc Hh NS R) as (_ & U & D & Fit & _).
  destruct (C84_real e c h He Hc Hh) as [_ A]. rewrite <- A in R. apply answers_spec in R as [p R].
  pose proof (spent_used _ _ _ _ _ _ _ R NS) as X.
  assert (M : forall (l : list (N * N)) (m : list N), map (fun x => fst (fst x)) (combine l m) = firstn (length m) (map fst l)).
  { induction l as [|x l IH]; intros [|y m]; try reflexivity. cbn. rewrite IH. reflexivity. }
  unfold both. rewrite M, X, firstn_map.
  assert (Z : NoDup (map (circle (cipher_lim c)) (used 0 rs))).
  { rewrite (map_ext_in _ (fun x => x)); [rewrite map_id; exact D|]. intros a Ha. rewrite U in Ha.
    apply in_map_iff in Ha as (i & <- & Hi). apply in_seq in Hi.
    destruct c as [[] | | | | | | | ]; cbn [cipher_lim circle fits last_byte] in *; try reflexivity; unfold l_period, l_blocks, l_bs; cbn [l_bs l_blocks];
    apply N.mod_small; unfold fits in Fit; cbn [last_byte] in Fit; lia. }
  rewrite <- firstn_map. rewrite <- (firstn_skipn (length (map snd (spent (cipher_lim c) 0 h' rs)))) in Z. 
  exact (nodup_front _ _ Z).
Qed.
Print Assumptions C84_no_seek.

(** Two messages under one keystream byte (spot 1): agreeing and disagreeing histories. *)
Example C84_satisfiable : let c := CChaCha Ietf 4 ex_key ex_nonce12 in
  let h := [Apply [1; 2]; Seek 1; Apply [3]; Seek (2 ^ 38)] in
  let h1 := [Apply [250; 6]; Seek 1; Apply [7]; Seek (2 ^ 38)] in
  let h2 := [Apply [250; 6]; Seek 1; Apply [9]; Seek (2 ^ 38)] in
  env_ok ex_env /\ cipher_ok c /\ Forall (call_ok ex_env) h /\ Forall op_bytes h /\ Forall op_bytes h1 /\ Forall op_bytes h2
  /\ same_shape h h1 /\ same_shape h h2
  /\ exists rs, cipher_run ex_env c h = Ok rs
     /\ both c rs h h1 = [(0, 1, 250); (1, 2, 6); (1, 3, 7)] /\ both c rs h h2 = [(0, 1, 250); (1, 2, 6); (1, 3, 9)]
     /\ (exists ks, keystream_like c ks /\ answers ex_env c ks h1 = Ok rs)
     /\ ~ (exists ks, keystream_like c ks /\ answers ex_env c ks h2 = Ok rs).
Proof.
  intros c h h1 h2.
  assert (He : env_ok ex_env) by (vm_compute; intuition discriminate).
  assert (Hc : cipher_ok c) by (vm_compute; intuition (try reflexivity); repeat constructor).
  assert (Hh : Forall (call_ok ex_env) h) by (repeat constructor; vm_compute; reflexivity).
  assert (B : Forall op_bytes h) by (repeat constructor).
  assert (B1 : Forall op_bytes h1) by (repeat constructor).
  assert (B2 : Forall op_bytes h2) by (repeat constructor).
  assert (S1 : same_shape h h1) by (repeat constructor).
  assert (S2 : same_shape h h2) by (repeat constructor).
  repeat (split; [assumption|]).
  destruct (cipher_run ex_env c h) as [rs|] eqn:R; [|exfalso; vm_compute in R; discriminate].
  exists rs. split; [reflexivity|].
  assert (X : both c rs h h1 = [(0, 1, 250); (1, 2, 6); (1, 3, 7)] /\ both c rs h h2 = [(0, 1, 250); (1, 2, 6); (1, 3, 9)]).
  { vm_compute in R. assert (E : Ok rs = Ok rs) by reflexivity. rewrite <- R in E at 2. clear R.
    assert (rs = match Ok rs with Ok x => x | Panic => [] end) by reflexivity. rewrite E in H. rewrite H. split; reflexivity. }
  destruct X as [X1 X2]. split; [exact X1|]. split; [exact X2|]. split.
  - apply (C84_exact ex_env c h h1 rs); try assumption. rewrite X1. cbn [In]. intros q a a' b b' H1 H2.
    repeat destruct H1 as [H1 | H1]; repeat destruct H2 as [H2 | H2]; try contradiction; injection H1 as <- <- <-; injection H2; intros; subst; reflexivity || discriminate.
  - rewrite (C84_exact ex_env c h h2 rs) by assumption. rewrite X2. intros H.
    specialize (H 1 2 6 3 9 (or_intror (or_introl eq_refl)) (or_intror (or_intror (or_introl eq_refl)))). vm_compute in H. discriminate.
Qed.
