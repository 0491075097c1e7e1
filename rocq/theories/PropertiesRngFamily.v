(** C80: programs with many generators.  However they are seeded, drawn from one another,
    saved, restored elsewhere and compared, each generator is a position in the one table
    of its own seed, and the answers do not depend on builds or CPUs. *)
From Coq Require Import String.
From Verif Require Import Word Res WordLemmas PropCommon SpecChaCha SpecRng ChaChaCore ChaChaDispatch BlockRng ChaChaRng RngProofs PropertiesRng RngFamily.
From Coq Require Import ZArith Lia ZifyBool ZifyNat ZifyN.
Local Open Scope N_scope.
Local Open Scope list_scope.

(** ** Specification *)
(** The seed that [from_rng] draws: the next eight words, as bytes. *)
Definition rg_child (dr : nat) (g : rg) : list N := flat_map (rg_le 4) (rg_take dr g 8).
Definition same_place (g g' : rg) : bool :=
  (if list_eq_dec N.eq_dec (g_seed g) (g_seed g') then true else false) && (g_stream g =? g_stream g') && (g_pos g =? g_pos g').
Definition spec_step (l : list (nat * rg)) (o : fop) : fret * list (nat * rg) :=
  match o with
  | FSeed n seed => (FMade, l ++ [(n, {| g_seed := seed; g_stream := 0; g_pos := 0 |})])
  | FCall i o =>
      match nth_error l i with
      | Some (n, g) => (FSaid (fst (rg_step n g o)), put l i (n, snd (rg_step n g o)))
      | None => (FBad, l)
      end
  | FFrom i n' =>
      match nth_error l i with
      | Some (n, g) => (FMade, put l i (n, rg_move g (g_pos g + 8)) ++ [(n', {| g_seed := rg_child n g; g_stream := 0; g_pos := 0 |})])
      | None => (FBad, l)
      end
  | FRestore i n' =>
      match nth_error l i with
      | Some (n, g) => (FMade, l ++ [(n', g)])
      | None => (FBad, l)
      end
  | FSame i j =>
      match nth_error l i, nth_error l j with
      | Some (n, g), Some (m, g') => if (n =? m)%nat then (FTold (same_place g g'), l) else (FBad, l)
      | _, _ => (FBad, l)
      end
  end.
Fixpoint spec_run (l : list (nat * rg)) (h : list (site * fop)) : list fret * list (nat * rg) :=
  match h with
  | [] => ([], l)
  | (_, o) :: h' => let (x, l1) := spec_step l o in let (xs, l2) := spec_run l1 h' in (x :: xs, l2)
  end.
(** Arguments as the Rust types have them; [get_block_pos] only where it cannot panic (C26). *)
Definition fop_ok (so : site * fop) : Prop :=
  match snd so with
  | FSeed _ seed => octets 32 seed
  | FCall _ o => rop_ok o /\ (s_ck (fst so) = false \/ o <> GetBlockPos)
  | _ => True
  end.

(** ** Proof *)
Definition FRel (l : list (nat * rng)) (m : list (nat * rg)) : Prop :=
  Forall2 (fun a b => fst a = fst b /\ Rel (fst a) (snd a) (snd b)) l m.
Lemma frel_nth l m i : FRel l m ->
  match nth_error l i, nth_error m i with
  | Some (n, r), Some (n', g) => n = n' /\ Rel n r g
  | None, None => True
  | _, _ => False
  end.
Proof.
  intros H. revert i. induction H as [|[n r] [n' g] l m [E HR] H IH]; intros [|i]; cbn [nth_error]; try exact I; [split; assumption|exact (IH i)].
Qed.
Lemma frel_put l m i n r g : FRel l m -> Rel n r g -> FRel (put l i (n, r)) (put m i (n, g)).
Proof.
  intros H HR. unfold put. apply Forall2_app.
  - revert i. induction H as [|a b l m Hab H IH]; intros [|i]; cbn [firstn]; constructor; [exact Hab|apply IH].
  - constructor; [split; [reflexivity|exact HR]|]. revert i. induction H as [|a b l m Hab H IH]; intros i; [constructor|].
    cbn [skipn]. destruct i as [|i]; [exact H|]. apply IH.
Qed.
Lemma frel_snoc l m n r g : FRel l m -> Rel n r g -> FRel (l ++ [(n, r)]) (m ++ [(n, g)]).
Proof. intros H HR. apply Forall2_app; [exact H|]. constructor; [split; [reflexivity|exact HR]|constructor]. Qed.
Lemma rel_pos n r g : Rel n r g -> g_pos g < 2 ^ 68.
Proof. intros (_ & _ & _ & P & E & _). rewrite E. unfold gat. cbn [g_pos]. apply N.mod_lt. discriminate. Qed.
Lemma child_octets dr g : octets 32 (rg_child dr g).
Proof.
  unfold rg_child, rg_take. cbn [seq map flat_map]. rewrite app_nil_r. split.
  - rewrite !app_length, !rg_le_length. reflexivity.
  - repeat (apply Forall_app; split; [apply bytes_rg_le|]). apply bytes_rg_le.
Qed.
Lemma same_place_spec g g' : same_place g g' = true <-> g = g'.
Proof.
  unfold same_place. destruct g as [a b c], g' as [a' b' c']. cbn [g_seed g_stream g_pos].
  destruct (list_eq_dec N.eq_dec a a') as [->|Hn]; cbn [andb]; [|split; [discriminate|congruence]].
  rewrite andb_true_iff, !N.eqb_eq. split; [intros [-> ->]; reflexivity|intros E; split; congruence].
Qed.
Lemma words_in_32 : ((32 + 3) / 4)%nat = 8%nat.
Proof. reflexivity. Qed.
Lemma fill_step n g k : rg_step n g (Fill k) = (Buf (firstn k (flat_map (rg_le 4) (rg_take n g ((k + 3) / 4)%nat))), rg_move g (g_pos g + N.of_nat ((k + 3) / 4)%nat)).
Proof. reflexivity. Qed.
Lemma step_fill G ck r k : rng_step G ck r (Fill k) = let (l, r') := fill_bytes G r k in Ok (Buf l, r').
Proof. reflexivity. Qed.
Lemma draw_seed c p n r g : Rel n r g ->
  exists r', fill_bytes (rng_gen c p n) r 32 = (rg_child n g, r') /\ Rel n r' (rg_move g (g_pos g + 8))
  /\ rng_step (rng_gen c p n) false r (Fill 32) = Ok (Buf (rg_child n g), r').
Proof.
  intros HR. destruct (rel_step c p false n r g (Fill 32) HR I) as [(_ & Ex & _)|(r' & E & HR')]; [discriminate Ex|].
  rewrite fill_step, words_in_32 in E, HR'. cbn [fst snd] in E, HR'. rewrite firstn_all2 in E by (fold (rg_child n g); rewrite (proj1 (child_octets n g)); apply le_n).
  fold (rg_child n g) in E. assert (E0 := E). rewrite step_fill in E. destruct (fill_bytes (rng_gen c p n) r 32) as [seed r1].
  exists r'. split; [congruence|]. split; [exact HR'|exact E0].
Qed.
Lemma fam_step_ok s l m o : FRel l m -> fop_ok (s, o) ->
  exists l', fam_step s l o = Ok (fst (spec_step m o), l') /\ FRel l' (snd (spec_step m o)).
Proof.
  intros H Ho. destruct o as [n seed|i o|i n'|i n'|i j]; cbn [fam_step spec_step fop_ok snd fst] in *.
  - destruct Ho as [Hl Hb]. destruct (rel_from_seed cf0 pc0 n seed Hl Hb) as (r & E & HR). rewrite E. cbn [bind].
    exists (l ++ [(n, r)]). split; [reflexivity|]. apply frel_snoc; assumption.
  - pose proof (frel_nth l m i H) as X. destruct (nth_error l i) as [[n r]|], (nth_error m i) as [[n' g]|]; try contradiction.
    + destruct X as [<- HR]. destruct Ho as [Ho Hck].
      destruct (rel_step (s_cfg s) (s_cpu s) (s_ck s) n r g o HR Ho) as [(_ & -> & Ec)|(r' & E & HR')].
      * destruct Hck; congruence.
      * rewrite E. cbn [bind]. exists (put l i (n, r')). split; [reflexivity|]. apply frel_put; assumption.
    + exists l. auto.
  - pose proof (frel_nth l m i H) as X. destruct (nth_error l i) as [[n r]|], (nth_error m i) as [[n0 g]|]; try contradiction.
    + destruct X as [<- HR]. unfold rng_from_rng.
      destruct (draw_seed (s_cfg s) (s_cpu s) n r g HR) as (r' & E & HR' & _). rewrite E. destruct (child_octets n g) as [Cl Cb].
      destruct (rel_from_seed cf0 pc0 n' (rg_child n g) Cl Cb) as (c & Ec & HC). rewrite Ec. cbn [bind].
      exists (put l i (n, r') ++ [(n', c)]). split; [reflexivity|]. apply frel_snoc; [apply frel_put; assumption|exact HC].
    + exists l. auto.
  - pose proof (frel_nth l m i H) as X. destruct (nth_error l i) as [[n r]|], (nth_error m i) as [[n0 g]|]; try contradiction.
    + destruct X as [<- HR]. rewrite (rel_serialize cf0 pc0 (s_ck s) n r g HR). cbn [bind].
      pose proof (rel_pos n r g HR) as Hp. destruct HR as (Hsl & Hsb & Hs & _).
      destruct (rel_deserialize (s_cfg s) (s_cpu s) n' (g_seed g) (rg_le 8 (g_stream g)) (rg_le 9 (g_pos g)) Hsl Hsb (rg_le_length _ _) (bytes_rg_le _ _) (rg_le_length _ _))
        as (r' & E' & HR'). rewrite E'. cbn [bind].
      rewrite !rg_int_le in HR' by first [exact Hs | transitivity (2 ^ 68); [exact Hp | reflexivity]]. rewrite N.mod_small in HR' by exact Hp.
      exists (l ++ [(n', r')]). split; [reflexivity|]. apply frel_snoc; [exact H|]. destruct g; exact HR'.
    + exists l. auto.
  - pose proof (frel_nth l m i H) as X. pose proof (frel_nth l m j H) as Y.
    destruct (nth_error l i) as [[n r]|], (nth_error m i) as [[n0 g]|]; try contradiction; [|exists l; auto].
    destruct (nth_error l j) as [[n1 r1]|], (nth_error m j) as [[n2 g1]|]; try contradiction; [|exists l; auto].
    destruct X as [<- HX], Y as [<- HY]. destruct (Nat.eqb_spec n n1) as [<-|_]; [|exists l; auto].
    exists l. split; [|exact H]. cbn [fst]. do 3 f_equal. apply eq_true_iff_eq. rewrite same_place_spec. apply (rng_eq_spec cf0 pc0 n); assumption.
Qed.

(** ** C80 *)
Theorem C80_family h : Forall fop_ok h -> exists l, fam_run [] h = Ok (fst (spec_run [] h), l).
Proof.
  assert (G : forall h l m, FRel l m -> Forall fop_ok h -> exists l', fam_run l h = Ok (fst (spec_run m h), l')).
  { clear h. induction h as [|[s o] h IH]; intros l m H Hok; cbn [fam_run spec_run]; [exists l; reflexivity|].
    inversion Hok as [|? ? Ho Hok']; subst. destruct (fam_step_ok s l m o H Ho) as (l1 & E & H1). rewrite E. cbn [bind].
    destruct (spec_step m o) as [x m1]. cbn [fst snd] in *. destruct (IH l1 m1 H1 Hok') as (l2 & E2). rewrite E2. cbn [bind].
    destruct (spec_run m1 h) as [xs m2]. exists l2. reflexivity. }
  intros Hok. apply (G h [] []); [constructor|exact Hok].
Qed.
(** Builds, CPUs and overflow checks do not show. *)
Theorem C80_sites h h' : Forall fop_ok h -> Forall fop_ok h' -> map snd h = map snd h' ->
  exists xs l l', fam_run [] h = Ok (xs, l) /\ fam_run [] h' = Ok (xs, l').
Proof.
  intros H H' E. destruct (C80_family h H) as (l & E1). destruct (C80_family h' H') as (l' & E2).
  exists (fst (spec_run [] h)), l, l'. split; [exact E1|]. rewrite E2. do 2 f_equal.
  assert (X : forall h h' m, map snd h = map snd h' -> spec_run m h = spec_run m h').
  { clear. induction h as [|[s o] h IH]; intros [|[s' o'] h'] m E; cbn [map snd] in E; try discriminate E; [reflexivity|].
    injection E as -> E. cbn [spec_run]. destruct (spec_step m o') as [x m1]. rewrite (IH h' m1 E). reflexivity. }
  rewrite (X h h' [] E). reflexivity.
Qed.
(** A child at any depth: the word [w] of a generator drawn from another is a fixed function
    of the parent's seed, stream and position at that moment, and the parent goes on eight
    words later. *)
Theorem C80_child n c p r seed s w n' : reachable n r -> at_ r = {| g_seed := seed; g_stream := s; g_pos := w |} ->
  exists child r', rng_from_rng (rng_gen c p n) r = Ok (child, r') /\ reachable n' child /\ reachable n r'
  /\ at_ child = {| g_seed := flat_map (rg_le 4) (map (fun i => rg_word n seed s (w + N.of_nat i)) (seq 0 8)); g_stream := 0; g_pos := 0 |}
  /\ at_ r' = {| g_seed := seed; g_stream := s; g_pos := (w + 8) mod 2 ^ 68 |}
  /\ forall c' p' ck k, exists r2, rng_run (rng_gen c' p' n') ck child (repeat NextU32 k)
       = Ok (map (fun i => Num (rg_word n' (flat_map (rg_le 4) (map (fun j => rg_word n seed s (w + N.of_nat j)) (seq 0 8))) 0 (N.of_nat i))) (seq 0 k), r2).
Proof.
  intros Hr Ea. pose proof (reach_rel n r Hr) as HR. rewrite Ea in HR.
  set (g := {| g_seed := seed; g_stream := s; g_pos := w |}) in *.
  destruct (draw_seed c p n r g HR) as (r' & E & HR' & E0).
  assert (Rr' : reachable n r') by (apply (R_call n c p false r (Fill 32) _ r' Hr I E0)).
  unfold rng_from_rng. rewrite E. destruct (child_octets n g) as [Cl Cb].
  destruct (rel_from_seed cf0 pc0 n' (rg_child n g) Cl Cb) as (ch & Ec & HC). rewrite Ec. cbn [bind].
  assert (Rc : reachable n' ch) by (apply (R_seed n' (rg_child n g) ch (conj Cl Cb) Ec)).
  exists ch, r'. split; [reflexivity|]. split; [exact Rc|]. split; [exact Rr'|].
  split; [apply (reach_at n' ch _ Rc HC)|]. split; [apply (reach_at n r' _ Rr' HR')|].
  intros c' p' ck k. destruct (run_at n' c' p' ck ch (repeat NextU32 k) Rc) as (r2 & E2 & _).
  - clear. induction k; constructor; [exact I|assumption].
  - right. clear. induction k; constructor; [discriminate|assumption].
  - exists r2. rewrite E2. do 2 f_equal. rewrite (reach_at n' ch _ Rc HC).
    assert (X : forall k j, N.of_nat (j + k) <= 2 ^ 68 \/ True -> fst (rg_run n' {| g_seed := rg_child n g; g_stream := 0; g_pos := N.of_nat j mod 2 ^ 68 |} (repeat NextU32 k))
              = map (fun i => Num (rg_word n' (rg_child n g) 0 (N.of_nat i))) (seq j k)).
    { clear. induction k as [|k IH]; intros j _; [reflexivity|]. cbn [repeat rg_run rg_step seq map].
      unfold rg_move. cbn [g_seed g_stream g_pos]. rewrite N.add_mod_idemp_l by discriminate.
      replace (N.of_nat j + 1) with (N.of_nat (S j)) by lia.
      specialize (IH (S j) (or_intror I)). destruct (rg_run n' _ (repeat NextU32 k)) as [ys g2]. cbn [fst] in *. rewrite IH.
      f_equal. f_equal. unfold rg_take. cbn [seq map nth g_seed g_stream g_pos]. rewrite N.add_0_r. unfold rg_word.
      assert (M : forall a, (a mod 2 ^ 68) mod 16 = a mod 16 /\ (a mod 2 ^ 68 / 16) mod 2 ^ 64 = a / 16 mod 2 ^ 64).
      { intros a. change (2 ^ 68) with (16 * 2 ^ 64). rewrite N.mod_mul_r by discriminate. split.
        - rewrite N.mul_comm, N.mod_add, N.mod_mod by discriminate. reflexivity.
        - rewrite N.mul_comm, N.div_add, N.div_small, N.add_0_l, N.mod_mod by (first [discriminate | apply N.mod_lt; discriminate]). reflexivity. }
      destruct (M (N.of_nat j)) as [M1 M2]. rewrite M1, M2. reflexivity. }
    apply (X k 0%nat). right. exact I.
Qed.

Print Assumptions C80_family.
Print Assumptions C80_sites.
Print Assumptions C80_child.

(** A program: seeds of 42s (the documentation example of [chacha20/src/rng.rs:119-131] is its calls
    0 to 3), a ChaCha8 child of a ChaCha20 parent, a copy that falls behind and catches up, and
    a comparison of different types that does not exist. *)
Definition here : site := {| s_cfg := cf0; s_cpu := pc0; s_ck := true |}.
Definition there : site :=
  {| s_cfg := {| c_target := X86; c_backend := NoCfg; c_avx512 := true |}; s_cpu := {| has_avx512 := true; has_avx2 := true; has_sse2 := true |}; s_ck := false |}.
Definition demo : list (site * fop) :=
  [(here, FSeed 10 (repeat 42 32)); (here, FCall 0 NextU32); (here, FCall 0 NextU64); (here, FCall 0 (Fill 3));
   (here, FFrom 0 4); (here, FCall 1 NextU32); (there, FRestore 0 10); (there, FSame 0 2);
   (here, FCall 0 NextU32); (there, FSame 2 0); (there, FCall 2 NextU32); (there, FSame 2 0); (here, FSame 0 1); (here, FCall 0 GetWordPos)].
Example C80_satisfiable :
  Forall fop_ok demo
  /\ (match fst (spec_run [] demo) with
      | [FMade; FSaid (Num a); FSaid (Num b); FSaid (Buf l); FMade; FSaid (Num c); FMade; FTold true; FSaid (Num d); FTold false; FSaid (Num e); FTold true; FBad; FSaid (Num 13)] =>
          List.length l = 3%nat /\ a <> c /\ d = e /\ c <> d
      | _ => False
      end)
  /\ exists l, fam_run [] demo = Ok (fst (spec_run [] demo), l).
Proof.
  assert (H : Forall fop_ok demo).
  { unfold demo. repeat (constructor; [cbn [fop_ok fst snd]; first [exact I | split; [exact I|right; discriminate] | split; [reflexivity|repeat constructor]]|]). constructor. }
  split; [exact H|]. split; [vm_compute; repeat split; discriminate|exact (C80_family demo H)].
Qed.
