(** Decision procedure for statements about all builds: path conditions and a tautology
    checker. *)
From Verif Require Import Cfg.
From Coq Require Import Lia.

Lemma atom_eq_dec (a b : atom) : {a = b} + {a <> b}.
Proof. decide equality. Defined.

(** ** Path conditions *)
Fixpoint conds (p : cfg) (s : src) : list (cfg * item) :=
  match s with
  | Its l => map (fun x => (p, x)) l
  | Cat a b => conds p a ++ conds p b
  | If c a b => conds (CAnd p c) a ++ conds (CAnd p (CNot c)) b
  end.
Definition keep (e : atom -> bool) (l : list (cfg * item)) : list item :=
  map snd (filter (fun x => eval e (fst x)) l).
Lemma keep_app e l l' : keep e (l ++ l') = keep e l ++ keep e l'.
Proof. unfold keep. rewrite filter_app, map_app. reflexivity. Qed.
Lemma keep_false e s : forall p, eval e p = false -> keep e (conds p s) = [].
Proof.
  induction s as [l|a IHa b IHb|c a IHa b IHb]; intros p H; cbn [conds].
  - unfold keep. induction l as [|x l IH]; [reflexivity|]. cbn [map filter fst]. rewrite H. exact IH.
  - rewrite keep_app, IHa, IHb by exact H. reflexivity.
  - rewrite keep_app, IHa, IHb; [reflexivity| |]; cbn [eval]; rewrite H; reflexivity.
Qed.
Lemma keep_conds e s : forall p, eval e p = true -> keep e (conds p s) = active e s.
Proof.
  induction s as [l|a IHa b IHb|c a IHa b IHb]; intros p H; cbn [conds active].
  - unfold keep. induction l as [|x l IH]; [reflexivity|]. cbn [map filter fst]. rewrite H. cbn [map snd]. f_equal. exact IH.
  - rewrite keep_app, IHa, IHb by exact H. reflexivity.
  - rewrite keep_app. destruct (eval e c) eqn:E.
    + rewrite IHa, keep_false, app_nil_r; [reflexivity| |]; cbn [eval]; rewrite H, E; reflexivity.
    + rewrite IHb, keep_false; [reflexivity| |]; cbn [eval]; rewrite H, E; reflexivity.
Qed.
Lemma in_keep e l x : In x (keep e l) <-> exists c, In (c, x) l /\ eval e c = true.
Proof.
  unfold keep. rewrite in_map_iff. split.
  - intros ([c y] & E & H). cbn in E. subst. apply filter_In in H. exists c. exact H.
  - intros (c & H). exists (c, x). split; [reflexivity | apply filter_In; exact H].
Qed.

(** ** Tautologies *)
Definition is_true (c : cfg) : bool := match c with CTrue => true | _ => false end.
Definition is_false (c : cfg) : bool := match c with CNot CTrue => true | _ => false end.
Definition CFalse : cfg := CNot CTrue.
Definition snot (c : cfg) : cfg := match c with CNot CTrue => CTrue | _ => CNot c end.
Definition sand (c d : cfg) : cfg :=
  if is_false c then CFalse else if is_false d then CFalse else if is_true c then d else if is_true d then c else CAnd c d.
Definition sor (c d : cfg) : cfg :=
  if is_true c then CTrue else if is_true d then CTrue else if is_false c then d else if is_false d then c else COr c d.
Lemma is_true_eval e c : is_true c = true -> eval e c = true.
Proof. destruct c; try discriminate. reflexivity. Qed.
Lemma is_false_eval e c : is_false c = true -> eval e c = false.
Proof. destruct c; try discriminate. destruct c; try discriminate. reflexivity. Qed.
Lemma snot_eval e c : eval e (snot c) = negb (eval e c).
Proof. destruct c; try reflexivity. destruct c; reflexivity. Qed.
Lemma sand_eval e c d : eval e (sand c d) = eval e c && eval e d.
Proof.
  unfold sand. destruct (is_false c) eqn:E; [rewrite (is_false_eval e c E); reflexivity|].
  destruct (is_false d) eqn:E2; [rewrite (is_false_eval e d E2), andb_false_r; reflexivity|].
  destruct (is_true c) eqn:E3; [rewrite (is_true_eval e c E3); reflexivity|].
  destruct (is_true d) eqn:E4; [rewrite (is_true_eval e d E4), andb_true_r; reflexivity|]. reflexivity.
Qed.
Lemma sor_eval e c d : eval e (sor c d) = eval e c || eval e d.
Proof.
  unfold sor. destruct (is_true c) eqn:E; [rewrite (is_true_eval e c E); reflexivity|].
  destruct (is_true d) eqn:E2; [rewrite (is_true_eval e d E2), orb_true_r; reflexivity|].
  destruct (is_false c) eqn:E3; [rewrite (is_false_eval e c E3); reflexivity|].
  destruct (is_false d) eqn:E4; [rewrite (is_false_eval e d E4), orb_false_r; reflexivity|]. reflexivity.
Qed.
(** [c] with atom [a] replaced by [v], simplified. *)
Fixpoint subst (a : atom) (v : bool) (c : cfg) : cfg :=
  match c with
  | CTrue => CTrue
  | CAtom x => if atom_eq_dec x a then (if v then CTrue else CFalse) else CAtom x
  | CNot c => snot (subst a v c)
  | CAnd c d => sand (subst a v c) (subst a v d)
  | COr c d => sor (subst a v c) (subst a v d)
  end.
Lemma subst_eval e a c : eval e (subst a (e a) c) = eval e c.
Proof.
  induction c as [|x|c IH|c IHc d IHd|c IHc d IHd]; cbn [subst eval].
  - reflexivity.
  - destruct (atom_eq_dec x a) as [->|]; [destruct (e a); reflexivity | reflexivity].
  - rewrite snot_eval, IH. reflexivity.
  - rewrite sand_eval, IHc, IHd. reflexivity.
  - rewrite sor_eval, IHc, IHd. reflexivity.
Qed.
Fixpoint first_atom (c : cfg) : option atom :=
  match c with
  | CTrue => None
  | CAtom a => Some a
  | CNot c => first_atom c
  | CAnd c d | COr c d => match first_atom c with Some a => Some a | None => first_atom d end
  end.
Fixpoint taut (n : nat) (c : cfg) : bool :=
  if is_true c then true else
  match n, first_atom c with
  | S n, Some a => if taut n (subst a true c) then taut n (subst a false c) else false
  | _, _ => false
  end.
Lemma taut_sound e n : forall c, taut n c = true -> eval e c = true.
Proof.
  induction n as [|n IH]; intros c; cbn [taut]; destruct (is_true c) eqn:E; intros H; try (apply is_true_eval; exact E); try discriminate.
  destruct (first_atom c) as [a|]; [|discriminate].
  destruct (taut n (subst a true c)) eqn:T; [|discriminate].
  rewrite <- (subst_eval e a). destruct (e a); apply IH; assumption.
Qed.
Definition implies (c d : cfg) : cfg := COr (CNot c) d.
(** [d] under the hypotheses [c] and [h]; the order decides which atoms are split first. *)
Definition under (c h d : cfg) : cfg := COr (CNot c) (COr d (CNot h)).
Lemma under_eval e c h d : eval e (under c h d) = true -> eval e c = true -> eval e h = true -> eval e d = true.
Proof. unfold under. cbn [eval]. intros H E E'. rewrite E, E' in H. cbn in H. rewrite orb_false_r in H. exact H. Qed.
Lemma implies_eval e c d : eval e (implies c d) = true -> eval e c = true -> eval e d = true.
Proof. unfold implies. cbn [eval]. intros H E. rewrite E in H. exact H. Qed.

(** What holds of the atoms of every build: one architecture, one backend, feature
    dependencies. *)
Definition disjoint (c d : cfg) : cfg := CNot (CAnd c d).
Definition wf : cfg :=
  CAnd (disjoint AX86 AX86_64) (CAnd (disjoint AX86 AAarch64) (CAnd (disjoint AX86_64 AAarch64)
  (CAnd (disjoint BSoft BSse2) (CAnd (disjoint BSoft BAvx2) (CAnd (disjoint BSoft BAvx512)
  (CAnd (disjoint BSse2 BAvx2) (CAnd (disjoint BSse2 BAvx512) (CAnd (disjoint BAvx2 BAvx512)
  (CAnd (implies FLegacy FCipher) (implies FXchacha FCipher)))))))))).
Lemma atoms_wf b : eval (atoms b) wf = true.
Proof.
  destruct b as [c r l x z a n s v f vl k b]. unfold wf, disjoint, implies. cbn [eval].
  unfold atoms, f_cipher, f_legacy, f_xchacha, b_arch, b_backend.
  destruct a, k, c, l, x; reflexivity.
Qed.

(** ** Checks of the table of conditions *)
Definition declares (n t : string) (l : list (cfg * item)) : cfg :=
  fold_right (fun x c => match snd x with
                         | Decl n' t' => if String.eqb n n' && (String.eqb t "*" || String.eqb t t') then COr (fst x) c else c
                         | _ => c
                         end) CFalse l.
(** Under [h], every use in [l] has a declaration in [all]. *)
Definition uses_ok (k : nat) (h : cfg) (all l : list (cfg * item)) : bool :=
  forallb (fun x => match snd x with
                    | Use n t => taut k (under (fst x) h (declares n t all))
                    | _ => true
                    end) l.
Fixpoint decls_ok (k : nat) (h : cfg) (l : list (cfg * item)) : bool :=
  match l with
  | [] => true
  | (c, Decl n _) :: l' => taut k (under c h (CNot (declares n "*" l'))) && decls_ok k h l'
  | _ :: l' => decls_ok k h l'
  end.
Definition errors (l : list (cfg * item)) : cfg :=
  fold_right (fun x c => match snd x with Error _ => COr (fst x) c | _ => c end) CFalse l.

Lemma declares_spec e n t l : eval e (declares n t l) = true ->
  exists t', In (Decl n t') (keep e l) /\ (t = "*"%string \/ t = t').
Proof.
  induction l as [|[c x] l IH]; intros H; [discriminate|].
  assert (X : eval e (declares n t l) = true -> exists t', In (Decl n t') (keep e ((c, x) :: l)) /\ (t = "*"%string \/ t = t')).
  { intros E. destruct (IH E) as (t' & H1 & H2). exists t'. split; [|exact H2].
    change ((c, x) :: l) with ([(c, x)] ++ l). rewrite keep_app. apply in_or_app. right. exact H1. }
  unfold declares in H. cbn [fold_right snd fst] in H. destruct x as [n' t'|n' t'|m]; try (apply X; exact H).
  destruct (String.eqb n n' && (String.eqb t "*" || String.eqb t t')) eqn:E; [|apply X; exact H].
  cbn [eval] in H. apply orb_prop in H. destruct H as [H|H]; [|apply X; exact H].
  apply andb_prop in E. destruct E as [E1 E2]. apply String.eqb_eq in E1. subst n'.
  exists t'. split.
  - apply in_keep. exists c. split; [left; reflexivity | exact H].
  - apply orb_prop in E2. destruct E2 as [E2|E2]; apply String.eqb_eq in E2; auto.
Qed.
Lemma declares_complete e n t l : In (Decl n t) (keep e l) -> eval e (declares n "*" l) = true.
Proof.
  induction l as [|[c x] l IH]; [intros []|]. intros H. apply in_keep in H. destruct H as (c' & [H|H] & E).
  - inversion H. subst. unfold declares. cbn [fold_right snd fst]. rewrite !String.eqb_refl. cbn [andb orb].
    cbn [eval fst]. rewrite E. reflexivity.
  - assert (X : eval e (declares n "*" l) = true) by (apply IH, in_keep; exists c'; split; assumption).
    unfold declares. cbn [fold_right snd fst]. destruct x as [n' t'| |]; try exact X.
    destruct (String.eqb n n' && _); [|exact X]. cbn [eval]. unfold declares in X. rewrite X. apply orb_true_r.
Qed.
Definition decl_name (i : item) : list string := match i with Decl n _ => [n] | _ => [] end.
Lemma in_names l n : In n (flat_map decl_name l) <-> exists t, In (Decl n t) l.
Proof.
  rewrite in_flat_map. split.
  - intros ([m t| |] & H & E); cbn in E; try tauto. destruct E as [->|[]]. exists t. exact H.
  - intros (t & H). exists (Decl n t). split; [exact H | left; reflexivity].
Qed.
Lemma uses_ok_sound e k h all l : uses_ok k h all l = true -> eval e h = true ->
  forall n t, In (Use n t) (keep e l) -> exists t', In (Decl n t') (keep e all) /\ (t = "*"%string \/ t = t').
Proof.
  unfold uses_ok. rewrite forallb_forall. intros H Hh n t Hi. apply in_keep in Hi. destruct Hi as (c & Hi & E).
  specialize (H _ Hi). cbn [snd fst] in H. apply (taut_sound e) in H.
  apply declares_spec, (under_eval e c h); assumption.
Qed.
Lemma decls_ok_sound e k h l : decls_ok k h l = true -> eval e h = true -> NoDup (flat_map decl_name (keep e l)).
Proof.
  induction l as [|[c x] l IH]; intros H Hh; [constructor|].
  change ((c, x) :: l) with ([(c, x)] ++ l). rewrite keep_app, flat_map_app.
  assert (X : decls_ok k h l = true) by (destruct x; cbn [decls_ok] in H; [apply andb_prop in H; apply H | exact H | exact H]).
  specialize (IH X Hh). unfold keep at 1. cbn [filter fst]. destruct (eval e c) eqn:E; [|exact IH].
  cbn [map snd flat_map]. destruct x as [n t|n t|m]; try exact IH. cbn [decl_name app]. constructor; [|exact IH].
  intros Hi. apply in_names in Hi. destruct Hi as (t' & Hi). apply declares_complete in Hi.
  cbn [decls_ok] in H. apply andb_prop in H. destruct H as [H _]. apply (taut_sound e) in H.
  apply (under_eval e c h) in H; [|exact E|exact Hh]. cbn [eval] in H.
  rewrite Hi in H. discriminate.
Qed.
Lemma errors_spec e l : eval e (errors l) = true <-> exists m, In (Error m) (keep e l).
Proof.
  induction l as [|[c x] l IH]; [split; [discriminate | intros (m & [])]|].
  change ((c, x) :: l) with ([(c, x)] ++ l) at 2. setoid_rewrite keep_app. setoid_rewrite in_app_iff.
  assert (X : eval e (errors l) = true -> exists m, In (Error m) (keep e [(c, x)]) \/ In (Error m) (keep e l)).
  { intros H. apply IH in H. destruct H as (m & H). exists m. right. exact H. }
  unfold errors. cbn [fold_right snd fst]. fold (errors l).
  destruct x as [n t|n t|m].
  - split; [exact X|]. intros (m & [H|H]); [|apply IH; exists m; exact H].
    apply in_keep in H. destruct H as (c' & [H|[]] & _). discriminate.
  - split; [exact X|]. intros (m & [H|H]); [|apply IH; exists m; exact H].
    apply in_keep in H. destruct H as (c' & [H|[]] & _). discriminate.
  - cbn [eval]. split.
    + intros H. apply orb_prop in H. destruct H as [H|H]; [|apply X; exact H].
      exists m. left. apply in_keep. exists c. split; [left; reflexivity | exact H].
    + intros (m' & [H|H]).
      * apply in_keep in H. destruct H as (c' & [H|[]] & E). inversion H. subst. rewrite E. reflexivity.
      * apply orb_true_iff. right. apply IH. exists m'. exact H.
Qed.

(** The one combination that does not type-check: x86 with [chacha20_backend="avx512"]
    but without [chacha20_avx512], as soon as [new_internal] exists. *)
Definition clash : cfg := CAnd (CAnd any_x86 BAvx512) (CAnd (CNot CAvx512) cipher_or_rng).
Definition table : list (cfg * item) := conds CTrue crate.
Lemma crate_uses : uses_ok 24 (CAnd (CNot clash) wf) table table = true.
Proof. vm_compute. reflexivity. Qed.
Lemma crate_decls : decls_ok 24 wf table = true.
Proof. vm_compute. reflexivity. Qed.
Lemma items_keep b : items b = keep (atoms b) table.
Proof. symmetry. apply keep_conds. reflexivity. Qed.
