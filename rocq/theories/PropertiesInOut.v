(** Final theorem C88: ciphers working on buffers in memory, in place or from one buffer to
    another. *)
From Coq Require Import String.
From Verif Require Import Word Res WordLemmas Hex PropCommon SpecStream ChaChaCore ChaChaDispatch XChaCha CipherWrapper WrapperProofs
  Salsa Rabbit Hc256 Rc4 Ciphers CiphersProofs StreamLemmas PropertiesStream Fast InOut.
From Coq Require Import ZArith Lia ZifyBool ZifyNat ZifyN.
Ltac Zify.zify_post_hook ::= Z.div_mod_to_equations.
Local Open Scope N_scope.
Local Open Scope list_scope.

(** ** What it has to do *)
(** Memory [mem] after the [n] bytes at [o] have become [f d x], [x] being byte [d] of the
    buffer at [i]; all other bytes stay. *)
Definition region (mem : list N) (i o n : nat) (f : nat -> N -> N) : list N :=
  map (fun j => if ((o <=? j) && (j <? o + n))%nat then f (j - o)%nat (nth (i + (j - o)) mem 0) else nth j mem 0)
      (seq 0 (List.length mem)).
Section Spec.
  Context (ks : N -> N) (lim : option limits) (strict : bool).
  Definition grant (p : N) (n : nat) : bool := match lim with None => true | Some l => granted l p (N.of_nat n) end.
  (** One call: answer, position, memory; [None]: panic. *)
  Definition mem_step (p : N) (mem : list N) (x : mop) : option (mret * N * list N) :=
    let inout i o n :=
      if grant p n then Some (MDone, p + N.of_nat n, region mem i o n (fun d b => N.lxor b (ks (p + N.of_nat d)))) else Some (MErr, p, mem) in
    match x with
    | MApply o n => inout o o n
    | MB2b i n o n' => if (n =? n')%nat then inout i o n else Some (MErr, p, mem)
    | MWrite o n => if grant p n then Some (MDone, p + N.of_nat n, region mem o o n (fun d _ => ks (p + N.of_nat d))) else Some (MErr, p, mem)
    | MSeek q => match step_spec ks lim strict p (Seek q) with
                 | None => None
                 | Some (Done, q') => Some (MDone, q', mem)
                 | Some (_, _) => Some (MErr, p, mem)
                 end
    | MPos t => match step_spec ks lim strict p (CurPos t) with
                | Some (Pos q, _) => Some (MAt q, p, mem)
                | _ => Some (MErr, p, mem)
                end
    end.
  Fixpoint mem_run (p : N) (mem : list N) (h : list mop) : option (list mret * list N) :=
    match h with
    | [] => Some ([], mem)
    | x :: h' => match mem_step p mem x with
                 | None => None
                 | Some (r, p1, mem1) => match mem_run p1 mem1 h' with None => None | Some (rs, mem2) => Some (r :: rs, mem2) end
                 end
    end.
End Spec.
(** What Rust's slices guarantee: buffers lie in memory; the two of [apply_keystream_b2b]
    are disjoint. *)
Definition buffers_ok (size : nat) (x : mop) : Prop :=
  match x with
  | MApply o n | MWrite o n => (o + n <= size)%nat
  | MB2b i n o n' => (i + n <= size)%nat /\ (o + n' <= size)%nat /\ (i + n <= o \/ o + n' <= i)%nat
  | _ => True
  end.

(** ** Memory *)
Lemma set_byte_length mem a b : (a < List.length mem)%nat -> List.length (set_byte mem a b) = List.length mem.
Proof. intros H. unfold set_byte. rewrite app_length, firstn_length. cbn [List.length]. rewrite skipn_length. lia. Qed.
Lemma set_byte_nth mem a b j : (a < List.length mem)%nat ->
  nth j (set_byte mem a b) 0 = if (j =? a)%nat then b else nth j mem 0.
Proof.
  intros H. unfold set_byte.
  assert (Lf : List.length (firstn a mem) = a) by (rewrite firstn_length; lia).
  destruct (Nat.eqb_spec j a) as [->|Hn].
  - rewrite app_nth2 by lia. rewrite Lf, Nat.sub_diag. reflexivity.
  - destruct (Nat.lt_ge_cases j a) as [Hl|Hg].
    + rewrite app_nth1 by lia. rewrite <- (firstn_skipn a mem) at 2. rewrite app_nth1 by lia. reflexivity.
    + rewrite app_nth2 by lia. rewrite Lf. destruct (j - a)%nat as [|m] eqn:E; [lia|]. cbn [nth].
      rewrite <- (firstn_skipn (S a) mem) at 2. rewrite app_nth2; rewrite firstn_length; [|lia]. f_equal. lia.
Qed.
Lemma list_ext (a b : list N) : List.length a = List.length b -> (forall j, (j < List.length a)%nat -> nth j a 0 = nth j b 0) -> a = b.
Proof. intros H1 H2. apply (nth_ext a b 0 0); assumption. Qed.
Lemma region_nth mem i o n f j : (j < List.length mem)%nat ->
  nth j (region mem i o n f) 0 = if ((o <=? j) && (j <? o + n))%nat then f (j - o)%nat (nth (i + (j - o)) mem 0) else nth j mem 0.
Proof.
  intros H. unfold region.
  match goal with |- nth j (map ?g _) 0 = _ => rewrite (nth_indep _ 0 (g 0%nat)) by (rewrite map_length, seq_length; exact H); rewrite (map_nth g) end.
  rewrite seq_nth by exact H. reflexivity.
Qed.
Lemma region_length mem i o n f : List.length (region mem i o n f) = List.length mem.
Proof. unfold region. rewrite map_length, seq_length. reflexivity. Qed.

Definition apart (i o n : nat) : Prop := (i = o \/ i + n <= o \/ o + n <= i)%nat.
Lemma xor_length ks : forall mem i o, (o + List.length ks <= List.length mem)%nat -> List.length (xor_in2out mem i o ks) = List.length mem.
Proof.
  induction ks as [|k ks IH]; intros mem i o H; cbn [xor_in2out List.length] in *; [reflexivity|].
  rewrite IH by (rewrite set_byte_length; lia). apply set_byte_length; lia.
Qed.
Lemma xor_nth ks : forall mem i o j, (o + List.length ks <= List.length mem)%nat -> apart i o (List.length ks) ->
  nth j (xor_in2out mem i o ks) 0 =
  if ((o <=? j) && (j <? o + List.length ks))%nat then N.lxor (nth (i + (j - o)) mem 0) (nth (j - o) ks 0) else nth j mem 0.
Proof.
  unfold apart. induction ks as [|k ks IH]; intros mem i o j H Ha; cbn [xor_in2out List.length] in *.
  - destruct (Nat.leb_spec o j), (Nat.ltb_spec j (o + 0)); cbn [andb]; try reflexivity; lia.
  - rewrite IH by (rewrite ?set_byte_length; lia). rewrite !set_byte_nth by lia.
    destruct (Nat.leb_spec (S o) j), (Nat.leb_spec o j), (Nat.ltb_spec j (S o + List.length ks)), (Nat.ltb_spec j (o + S (List.length ks))); cbn [andb]; try lia;
      destruct (Nat.eqb_spec j o); destruct (Nat.eqb_spec (S i + (j - S o)) o); try lia; try reflexivity.
    + replace (j - o)%nat with (S (j - S o)) by lia. cbn [nth]. f_equal. f_equal. lia.
    + replace (j - o)%nat with 0%nat by lia. subst j. rewrite Nat.add_0_r. reflexivity.
    + replace (j - o)%nat with 0%nat by lia. subst j. rewrite Nat.add_0_r. reflexivity.
Qed.
Lemma store_length ks : forall mem o, (o + List.length ks <= List.length mem)%nat -> List.length (store mem o ks) = List.length mem.
Proof.
  induction ks as [|k ks IH]; intros mem o H; cbn [store List.length] in *; [reflexivity|].
  rewrite IH by (rewrite set_byte_length; lia). apply set_byte_length; lia.
Qed.
Lemma store_nth ks : forall mem o j, (o + List.length ks <= List.length mem)%nat ->
  nth j (store mem o ks) 0 = if ((o <=? j) && (j <? o + List.length ks))%nat then nth (j - o) ks 0 else nth j mem 0.
Proof.
  induction ks as [|k ks IH]; intros mem o j H; cbn [store List.length] in *.
  - destruct (Nat.leb_spec o j), (Nat.ltb_spec j (o + 0)); cbn [andb]; try reflexivity; lia.
  - rewrite IH by (rewrite ?set_byte_length; lia). rewrite !set_byte_nth by lia.
    destruct (Nat.leb_spec (S o) j), (Nat.leb_spec o j), (Nat.ltb_spec j (S o + List.length ks)), (Nat.ltb_spec j (o + S (List.length ks))); cbn [andb]; try lia;
      destruct (Nat.eqb_spec j o); try lia; try reflexivity.
    + replace (j - o)%nat with (S (j - S o)) by lia. reflexivity.
    + replace (j - o)%nat with 0%nat by lia. reflexivity.
Qed.
Lemma xor_app a : forall mem i o b, xor_in2out mem i o (a ++ b) = xor_in2out (xor_in2out mem i o a) (i + List.length a) (o + List.length a) b.
Proof.
  induction a as [|k a IH]; intros mem i o b; cbn [xor_in2out app List.length]; [rewrite !Nat.add_0_r; reflexivity|].
  rewrite IH, <- !Nat.add_succ_comm. reflexivity.
Qed.
Lemma store_app a : forall mem o b, store mem o (a ++ b) = store (store mem o a) (o + List.length a) b.
Proof.
  induction a as [|k a IH]; intros mem o b; cbn [store app List.length]; [rewrite !Nat.add_0_r; reflexivity|].
  rewrite IH, <- !Nat.add_succ_comm. reflexivity.
Qed.
Lemma xor_pieces_ok ps : forall mem i o, xor_pieces mem i o ps = xor_in2out mem i o (concat ps).
Proof. induction ps as [|p ps IH]; intros mem i o; cbn [xor_pieces concat]; [reflexivity|]. rewrite IH, xor_app. reflexivity. Qed.
Lemma pieces_concat cuts : forall l, concat (pieces cuts l) = l.
Proof. induction cuts as [|n cuts IH]; intros l; cbn [pieces concat]; [apply app_nil_r|]. rewrite IH. apply firstn_skipn. Qed.

(** Keystream bytes delivered are the region of the specification. *)
Lemma ks_nth ks p n d : (d < n)%nat -> nth d (ks_range ks p n) 0 = ks (p + N.of_nat d).
Proof.
  intros H. unfold ks_range.
  match goal with |- nth d (map ?g _) 0 = _ => rewrite (nth_indep _ 0 (g 0%nat)) by (rewrite map_length, seq_length; exact H); rewrite (map_nth g) end.
  rewrite seq_nth by exact H. reflexivity.
Qed.
Lemma xor_region ks p n mem i o : (i + n <= List.length mem)%nat -> (o + n <= List.length mem)%nat -> apart i o n ->
  xor_in2out mem i o (ks_range ks p n) = region mem i o n (fun d b => N.lxor b (ks (p + N.of_nat d))).
Proof.
  intros Hi Ho Ha. apply list_ext.
  - rewrite xor_length by (rewrite ks_range_length; exact Ho). rewrite region_length. reflexivity.
  - intros j Hj. rewrite xor_length in Hj by (rewrite ks_range_length; exact Ho).
    rewrite xor_nth by (rewrite ks_range_length; assumption). rewrite ks_range_length. rewrite region_nth by exact Hj.
    destruct (Nat.leb_spec o j), (Nat.ltb_spec j (o + n)); cbn [andb]; try reflexivity. rewrite ks_nth by lia. reflexivity.
Qed.
Lemma store_region ks p n mem o : (o + n <= List.length mem)%nat ->
  store mem o (ks_range ks p n) = region mem o o n (fun d _ => ks (p + N.of_nat d)).
Proof.
  intros Ho. apply list_ext.
  - rewrite store_length by (rewrite ks_range_length; exact Ho). rewrite region_length. reflexivity.
  - intros j Hj. rewrite store_length in Hj by (rewrite ks_range_length; exact Ho).
    rewrite store_nth by (rewrite ks_range_length; assumption). rewrite ks_range_length. rewrite region_nth by exact Hj.
    destruct (Nat.leb_spec o j), (Nat.ltb_spec j (o + n)); cbn [andb]; try reflexivity. rewrite ks_nth by lia. reflexivity.
Qed.

(** ** Every machine that answers calls like the specification *)
Definition after {W} (r : Res (ret * W)) (mem : list N) (f : list N -> list N) : Res (mret * W * list N) :=
  do (a, w') <- r;
  match a with
  | Bytes k => Ok (MDone, w', f k)
  | Done => Ok (MDone, w', mem)
  | Pos p => Ok (MAt p, w', mem)
  | Err => Ok (MErr, w', mem)
  end.
Definition plain {W} (stp : W -> op -> Res (ret * W)) (w : W) (mem : list N) (x : mop) : Res (mret * W * list N) :=
  match x with
  | MApply o n => after (stp w (Write n)) mem (xor_in2out mem o o)
  | MB2b i n o n' => if (n =? n')%nat then after (stp w (Write n)) mem (xor_in2out mem i o) else Ok (MErr, w, mem)
  | MWrite o n => after (stp w (Write n)) mem (store mem o)
  | MSeek p => after (stp w (Seek p)) mem (fun _ => mem)
  | MPos t => after (stp w (CurPos t)) mem (fun _ => mem)
  end.

Section Machine.
  Context {W : Type} (stp : W -> op -> Res (ret * W)) (mstp : W -> list N -> mop -> Res (mret * W * list N)).
  Context (e : env) (ks : N -> N) (lim : option limits) (strict : bool).
  Fixpoint runs (w : W) (h : list op) : Res (list ret) :=
    match h with
    | [] => Ok []
    | o :: h' => do (r, w1) <- stp w o; do rs <- runs w1 h'; Ok (r :: rs)
    end.
  Hypothesis mstp_plain : forall w mem x, mstp w mem x = plain stp w mem x.
  (** [w] answers every history like the specification at [p]. *)
  Definition like (w : W) (p : N) : Prop :=
    forall h, Forall (call_ok e) h -> runs w h = expect (run_spec ks lim strict p h).
  Lemma like_step w p o : like w p -> call_ok e o ->
    match step_spec ks lim strict p o with
    | None => stp w o = Panic
    | Some (r, p') => exists w', stp w o = Ok (r, w') /\ like w' p'
    end.
  Proof.
    intros H Ho. pose proof (H [o] (Forall_cons _ Ho (Forall_nil _))) as E. cbn [runs run_spec] in E.
    destruct (step_spec ks lim strict p o) as [[r p']|] eqn:Es.
    - destruct (stp w o) as [[r' w']|] eqn:Ew; [|discriminate]. cbn [bind expect] in E.
      assert (r' = r) by congruence. subst r'. exists w'. split; [reflexivity|].
      intros h Hh. pose proof (H (o :: h) (Forall_cons _ Ho Hh)) as E2. cbn [runs run_spec] in E2. rewrite Es, Ew in E2. cbn [bind] in E2.
      destruct (run_spec ks lim strict p' h) as [[rs q]|]; cbn [expect] in *; destruct (runs w' h) as [rs'|]; cbn [bind] in E2; congruence.
    - cbn [expect] in E. destruct (stp w o) as [[r' w']|]; [discriminate|reflexivity].
  Qed.
  Lemma machine_ok h : forall w p mem, like w p -> N.of_nat (List.length mem) < 2 ^ e_usz e -> Forall (buffers_ok (List.length mem)) h ->
    m_run mstp w mem h = match mem_run ks lim strict p mem h with Some r => Ok r | None => Panic end.
  Proof.
    induction h as [|x h IH]; intros w p mem Hl Hs Hb; cbn [m_run mem_run]; [reflexivity|].
    inversion Hb as [|? ? Hx Hr]; subst. rewrite mstp_plain.
    assert (Hgo : forall r w1 p1 mem1, like w1 p1 -> List.length mem1 = List.length mem ->
      (do (rs, mem2) <- m_run mstp w1 mem1 h; Ok (r :: rs, mem2)) =
      match (match mem_run ks lim strict p1 mem1 h with None => None | Some (rs, mem2) => Some (r :: rs, mem2) end) with Some y => Ok y | None => Panic end).
    { intros r w1 p1 mem1 H1 Hm. rewrite (IH w1 p1 mem1 H1) by (rewrite Hm; assumption).
      destruct (mem_run ks lim strict p1 mem1 h) as [[rs mem2]|]; reflexivity. }
    assert (Hw : forall n f g, (n <= List.length mem)%nat -> f (ks_range ks p n) = g -> List.length g = List.length mem ->
      (do (rw, mem1) <- after (stp w (Write n)) mem f; let (r, w1) := rw in do (rs, mem2) <- m_run mstp w1 mem1 h; Ok (r :: rs, mem2)) =
      match (match (if grant lim p n then Some (MDone, p + N.of_nat n, g) else Some (MErr, p, mem)) with
             | None => None | Some (r, p1, mem1) => match mem_run ks lim strict p1 mem1 h with None => None | Some (rs, mem2) => Some (r :: rs, mem2) end end)
      with Some r => Ok r | None => Panic end).
    { intros n f g Hn Hf Hg. pose proof (like_step w p (Write n) Hl) as L. cbn [step_spec call_ok] in L. cbv zeta in L. unfold after.
      specialize (L ltac:(lia)). fold (grant lim p n) in L. destruct (grant lim p n); destruct L as (w' & -> & L); cbn [bind].
      - rewrite Hf. apply Hgo; assumption.
      - apply Hgo; [assumption|reflexivity]. }
    destruct x as [o n|i n o n'|o n|q|t]; cbn [plain mem_step buffers_ok] in *; cbv zeta.
    - apply Hw; [lia| apply xor_region; unfold apart; lia | apply region_length].
    - destruct (Nat.eqb_spec n n') as [<-|Hn].
      + apply Hw; [lia| apply xor_region; unfold apart; lia | apply region_length].
      + cbn [bind]. apply Hgo; [assumption|reflexivity].
    - apply Hw; [lia| apply store_region; lia | apply region_length].
    - pose proof (like_step w p (Seek q) Hl Logic.I) as L. unfold after.
      assert (Cs : match step_spec ks lim strict p (Seek q) with None => True | Some (Done, _) => True | Some (Err, p') => p' = p | _ => False end).
      { cbn [step_spec]. cbv zeta. destruct lim; repeat match goal with |- context [if ?b then _ else _] => destruct b end; exact Logic.I || reflexivity. }
      destruct (step_spec ks lim strict p (Seek q)) as [[r p']|].
      + destruct L as (w' & -> & L). cbn [bind]. destruct r; try contradiction; [|subst p']; apply Hgo; assumption || reflexivity.
      + rewrite L. reflexivity.
    - pose proof (like_step w p (CurPos t) Hl Logic.I) as L. unfold after.
      assert (Cs : match step_spec ks lim strict p (CurPos t) with Some (Pos _, p') => p' = p | Some (Err, p') => p' = p | _ => False end).
      { cbn [step_spec]. cbv zeta. destruct lim; repeat match goal with |- context [if ?b then _ else _] => destruct b end; reflexivity. }
      destruct (step_spec ks lim strict p (CurPos t)) as [[r p']|]; [|contradiction].
      destruct L as (w' & -> & L). cbn [bind]. destruct r; try contradiction; subst p'; apply Hgo; assumption || reflexivity.
  Qed.
End Machine.

(** ** The machines of the model *)
Lemma m_apply_ok {S} (C : score S) cuts w mem i o len :
  m_apply C cuts w mem i o len = do (k, w') <- unchecked_write C w len; Ok (xor_in2out mem i o k, w').
Proof.
  unfold m_apply, unchecked_write. destruct (read_cached C w len) as [head cur].
  destruct (sc_gen C _ (w_core w)) as [[body st]|]; [|reflexivity]. cbn [bind].
  destruct (write_block C st (w_buf w) cur _) as [[tail w']|]; [|reflexivity]. cbn [bind].
  rewrite xor_pieces_ok, pieces_concat, !xor_app, !Nat.add_assoc. reflexivity.
Qed.
Lemma m_write_ok {S} (C : score S) w mem o len :
  m_write C w mem o len = do (k, w') <- unchecked_write C w len; Ok (store mem o k, w').
Proof.
  unfold m_write, unchecked_write. destruct (read_cached C w len) as [head cur].
  destruct (sc_gen C _ (w_core w)) as [[body st]|]; [|reflexivity]. cbn [bind].
  destruct (write_block C st (w_buf w) cur _) as [[tail w']|]; [|reflexivity]. cbn [bind].
  rewrite !store_app, !Nat.add_assoc. reflexivity.
Qed.
Lemma m_step_plain {S} (C : score S) cuts K w mem x : m_step C cuts K w mem x = plain (step C K) w mem x.
Proof.
  unfold m_step, plain, after, step, try_write. destruct x as [o n|i n o n'|o n|q|t].
  - destruct (check_remaining C w n); [|reflexivity]. rewrite m_apply_ok. destruct (unchecked_write C w n) as [[k w']|]; reflexivity.
  - destruct (n =? n')%nat; [|reflexivity]. destruct (check_remaining C w n); [|reflexivity].
    rewrite m_apply_ok. destruct (unchecked_write C w n) as [[k w']|]; reflexivity.
  - destruct (check_remaining C w n); [|reflexivity]. rewrite m_write_ok. destruct (unchecked_write C w n) as [[k w']|]; reflexivity.
  - destruct K as [K|]; [|reflexivity]. destruct (try_seek C K w q) as [[w'|]|]; reflexivity.
  - destruct K as [K|]; [|reflexivity]. destruct (try_current_pos C K w t) as [p|]; reflexivity.
Qed.
Lemma m_rc4_apply_ok len : forall s mem i o,
  m_rc4_apply s mem i o len = do (k, s') <- rc4_write s len; Ok (xor_in2out mem i o k, s').
Proof.
  induction len as [|len IH]; intros s mem i o; cbn [m_rc4_apply rc4_write]; [reflexivity|].
  destruct (prga s) as [[k s1]|]; [|reflexivity]. cbn [bind]. rewrite IH. destruct (rc4_write s1 len) as [[ks s2]|]; [|reflexivity].
  cbn [bind xor_in2out]. rewrite (N.lxor_comm k). reflexivity.
Qed.
Lemma m_rc4_write_ok len : forall s mem o,
  m_rc4_write s mem o len = do (k, s') <- rc4_write s len; Ok (store mem o k, s').
Proof.
  induction len as [|len IH]; intros s mem o; cbn [m_rc4_write rc4_write]; [reflexivity|].
  destruct (prga s) as [[k s1]|]; [|reflexivity]. cbn [bind]. rewrite IH. destruct (rc4_write s1 len) as [[ks s2]|]; reflexivity.
Qed.
Lemma m_rc4_step_plain s mem x : m_rc4_step s mem x = plain rc4_step s mem x.
Proof.
  unfold m_rc4_step, plain, after, rc4_step, rc4_check_remaining. destruct x as [o n|i n o n'|o n|q|t]; try reflexivity.
  - rewrite m_rc4_apply_ok. destruct (rc4_write s n) as [[k s']|]; reflexivity.
  - destruct (n =? n')%nat; [|reflexivity]. rewrite m_rc4_apply_ok. destruct (rc4_write s n) as [[k s']|]; reflexivity.
  - rewrite m_rc4_write_ok. destruct (rc4_write s n) as [[k s']|]; reflexivity.
Qed.
Lemma runs_run {S} (C : score S) K h : forall w, runs (step C K) w h = do (rs, _) <- run C K w h; Ok rs.
Proof.
  induction h as [|o h IH]; intros w; cbn [runs run]; [reflexivity|].
  destruct (step C K w o) as [[r w1]|]; [|reflexivity]. cbn [bind]. rewrite IH. destruct (run C K w1 h) as [[rs w2]|]; reflexivity.
Qed.
Lemma runs_rc4 h : forall s, runs rc4_step s h = do (rs, _) <- rc4_run s h; Ok rs.
Proof.
  induction h as [|o h IH]; intros s; cbn [runs rc4_run]; [reflexivity|].
  destruct (rc4_step s o) as [[r w1]|]; [|reflexivity]. cbn [bind]. rewrite IH. destruct (rc4_run w1 h) as [[rs w2]|]; reflexivity.
Qed.
Lemma m_core_ok {S} e (C : score S) K cuts m ks lim strict mem h :
  (forall x, Forall (call_ok e) x -> run_core C K m x = expect (run_spec ks lim strict 0 x)) ->
  N.of_nat (List.length mem) < 2 ^ e_usz e -> Forall (buffers_ok (List.length mem)) h ->
  m_core C K cuts m mem h = match mem_run ks lim strict 0 mem h with Some r => Ok r | None => Panic end.
Proof.
  intros H Hs Hb. unfold m_core. destruct m as [st|]; [|discriminate (H [] (Forall_nil _))]. cbn [bind].
  apply (machine_ok (step C K) _ e ks lim strict (m_step_plain C cuts K) h (w_new C st) 0 mem); try assumption.
  intros x Hx. rewrite runs_run. apply (H x Hx).
Qed.

(** ** C88 *)
Theorem C88_memory e c cuts mem h : env_ok e -> cipher_ok c ->
  N.of_nat (List.length mem) < 2 ^ e_usz e -> Forall (buffers_ok (List.length mem)) h ->
  cipher_mrun e c cuts mem h =
  match mem_run (cipher_ks c) (cipher_lim c) (cipher_strict e c) 0 mem h with Some r => Ok r | None => Panic end.
Proof.
  intros He Hc Hs Hb. pose proof (fun x => cipher_run_ok e c x He Hc) as H.
  destruct c as [v n key iv | n key iv | n key iv | n key iv | key iv | key | key iv | key];
    try (cbn [cipher_mrun]; apply (m_core_ok e); [exact H | assumption | assumption]).
  cbn [cipher_mrun]. pose proof (H [] (Forall_nil _)) as H0. cbn [cipher_run] in H0, H. revert H H0.
  destruct (new_from_slice key) as [[s|]|]; cbn [bind]; intros H H0; try (discriminate H0).
  apply (machine_ok rc4_step _ e (cipher_ks (CRc4 key)) _ _ m_rc4_step_plain h s 0 mem); try assumption.
  intros x Hx. rewrite runs_rc4. apply (H x Hx).
Qed.
Print Assumptions C88_memory.
(** The pieces in which a backend delivers do not matter, even for buffers that overlap. *)
Lemma m_run_ext {W} (s1 s2 : W -> list N -> mop -> Res (mret * W * list N)) : (forall w mem x, s1 w mem x = s2 w mem x) ->
  forall h w mem, m_run s1 w mem h = m_run s2 w mem h.
Proof.
  intros E. induction h as [|x h IH]; intros w mem; cbn [m_run]; [reflexivity|]. rewrite E.
  destruct (s2 w mem x) as [[[r w1] mem1]|]; [|reflexivity]. cbn [bind]. rewrite IH. reflexivity.
Qed.
Theorem C88_pieces e c cuts1 cuts2 mem h : cipher_mrun e c cuts1 mem h = cipher_mrun e c cuts2 mem h.
Proof.
  assert (H : forall S (C : score S) K m, m_core C K cuts1 m mem h = m_core C K cuts2 m mem h).
  { intros S C K m. unfold m_core. destruct m as [st|]; [|reflexivity]. cbn [bind]. apply m_run_ext.
    intros w mm x. rewrite !m_step_plain. reflexivity. }
  destruct c; cbn [cipher_mrun]; first [apply H | reflexivity].
Qed.
Print Assumptions C88_pieces.

(** A byte of memory that is in no output buffer stays, whatever the calls answer. *)
Definition outside (j : nat) (x : mop) : Prop :=
  match x with
  | MApply o n | MWrite o n | MB2b _ _ o n => (j < o \/ o + n <= j)%nat
  | _ => True
  end.
Lemma region_outside mem i o n f j : (j < o \/ o + n <= j)%nat -> nth j (region mem i o n f) 0 = nth j mem 0.
Proof.
  intros H. destruct (Nat.lt_ge_cases j (List.length mem)) as [Hj|Hj].
  - rewrite region_nth by exact Hj. destruct (Nat.leb_spec o j), (Nat.ltb_spec j (o + n)); cbn [andb]; try reflexivity; lia.
  - rewrite !nth_overflow; rewrite ?region_length; auto.
Qed.
Lemma mem_run_outside ks lim strict j h : forall p mem rs mem', Forall (outside j) h ->
  mem_run ks lim strict p mem h = Some (rs, mem') -> nth j mem' 0 = nth j mem 0 /\ List.length mem' = List.length mem.
Proof.
  induction h as [|x h IH]; intros p mem rs mem' Hj E; cbn [mem_run] in E.
  - injection E as _ <-. split; reflexivity.
  - inversion Hj as [|? ? Hx Hr]; subst.
    destruct (mem_step ks lim strict p mem x) as [[[r p1] mem1]|] eqn:Es; [|discriminate].
    destruct (mem_run ks lim strict p1 mem1 h) as [[rs2 mem2]|] eqn:Er; [|discriminate]. injection E as _ <-.
    destruct (IH _ _ _ _ Hr Er) as [I1 I2]. rewrite I1, I2. clear -Es Hx.
    assert (G : forall b p' f i o n (r' : mret * N * list N), (j < o \/ o + n <= j)%nat ->
       (if b : bool then Some (MDone, p', region mem i o n f) else Some (MErr, p, mem)) = Some r' ->
       nth j (snd r') 0 = nth j mem 0 /\ List.length (snd r') = List.length mem).
    { intros b p' f i o n r' Ho H. destruct b; injection H as <-; cbn [snd]; [|split; reflexivity].
      split; [apply region_outside; exact Ho|apply region_length]. }
    destruct x as [o n|i n o n'|o n|q|t]; cbn [mem_step outside] in *; cbv zeta in *.
    + apply (G _ _ _ _ _ _ _ Hx Es).
    + destruct (Nat.eqb_spec n n') as [<-|_]; [apply (G _ _ _ _ _ _ _ Hx Es)|]. injection Es as _ _ <-. split; reflexivity.
    + apply (G _ _ _ _ _ _ _ Hx Es).
    + destruct (step_spec ks lim strict p (Seek q)) as [[[] ?]|]; try discriminate; injection Es as _ _ <-; split; reflexivity.
    + destruct (step_spec ks lim strict p (CurPos t)) as [[[] ?]|]; try discriminate; injection Es as _ _ <-; split; reflexivity.
Qed.
Theorem C88_frame e c cuts mem h rs mem' j : env_ok e -> cipher_ok c ->
  N.of_nat (List.length mem) < 2 ^ e_usz e -> Forall (buffers_ok (List.length mem)) h -> Forall (outside j) h ->
  cipher_mrun e c cuts mem h = Ok (rs, mem') -> nth j mem' 0 = nth j mem 0 /\ List.length mem' = List.length mem.
Proof.
  intros He Hc Hs Hb Hj E. rewrite C88_memory in E by assumption.
  destruct (mem_run _ _ _ 0 mem h) as [r|] eqn:Er; [|discriminate]. injection E as ->. apply (mem_run_outside _ _ _ j h _ _ _ _ Hj Er).
Qed.
Print Assumptions C88_frame.

(** Encrypted in place, decrypted by another instance into another buffer: the message is
    there, the ciphertext is still where it was, and nothing else changed. *)
Theorem C88_roundtrip e1 e2 c cuts1 cuts2 mem o o2 n : env_ok e1 -> env_ok e2 -> cipher_ok c ->
  N.of_nat (List.length mem) < 2 ^ e_usz e1 -> N.of_nat (List.length mem) < 2 ^ e_usz e2 ->
  (o + n <= List.length mem)%nat -> (o2 + n <= List.length mem)%nat -> (o + n <= o2 \/ o2 + n <= o)%nat ->
  fits c (N.of_nat n) ->
  exists m1 m2, cipher_mrun e1 c cuts1 mem [MApply o n] = Ok ([MDone], m1)
    /\ cipher_mrun e2 c cuts2 m1 [MB2b o n o2 n] = Ok ([MDone], m2)
    /\ (forall d, (d < n)%nat -> nth (o2 + d) m2 0 = nth (o + d) mem 0)
    /\ (forall d, (d < n)%nat -> nth (o + d) m2 0 = N.lxor (nth (o + d) mem 0) (cipher_ks c (N.of_nat d)))
    /\ (forall j, (j < o \/ o + n <= j)%nat -> (j < o2 \/ o2 + n <= j)%nat -> nth j m2 0 = nth j mem 0).
Proof.
  intros He1 He2 Hc S1 S2 Ho Ho2 Ha Hf.
  assert (G : grant (cipher_lim c) 0 n = true).
  { apply fits_within in Hf. unfold grant. destruct (cipher_lim c) as [l|]; [|reflexivity]. cbn [within] in Hf.
    destruct Hf as (Hb & Hk & Hu). unfold granted, l_usable, l_period in *. rewrite N.mod_0_l by nia. rewrite N.add_0_l.
    destruct (N.leb_spec 0 (l_bs l * (l_blocks l - 1))); apply N.leb_le; lia. }
  set (f := fun (d : nat) (b : N) => N.lxor b (cipher_ks c (0 + N.of_nat d))).
  exists (region mem o o n f), (region (region mem o o n f) o o2 n f).
  rewrite !C88_memory; try assumption; rewrite ?region_length; try assumption;
    try (apply Forall_cons; [cbn [buffers_ok]; lia | apply Forall_nil]).
  cbn [mem_run mem_step]. cbv zeta. rewrite Nat.eqb_refl, G. fold f.
  split; [reflexivity|]. split; [reflexivity|]. subst f. split; [|split].
  - intros d Hd. rewrite region_nth by (rewrite region_length; lia). rewrite region_nth by lia.
    destruct (Nat.leb_spec o2 (o2 + d)), (Nat.ltb_spec (o2 + d) (o2 + n)); try lia. cbn [andb].
    destruct (Nat.leb_spec o (o + (o2 + d - o2))), (Nat.ltb_spec (o + (o2 + d - o2)) (o + n)); try lia. cbn [andb].
    replace (o2 + d - o2)%nat with d by lia. replace (o + d - o)%nat with d by lia.
    rewrite N.lxor_assoc, N.lxor_nilpotent, N.lxor_0_r. reflexivity.
  - intros d Hd. rewrite region_outside by lia. rewrite region_nth by lia.
    destruct (Nat.leb_spec o (o + d)), (Nat.ltb_spec (o + d) (o + n)); try lia. cbn [andb].
    replace (o + d - o)%nat with d by lia. reflexivity.
  - intros j H1 H2. rewrite !region_outside by assumption. reflexivity.
Qed.
Print Assumptions C88_roundtrip.

(** Buffers that overlap without being equal - which Rust's borrow rules exclude - would be
    processed wrongly: the input is overwritten before it is read. *)
Definition ex_rc4 : cipher := CRc4 (repeat 7 5).
Theorem C88_overlap : exists mem h m1 m2,
  cipher_mrun ex_env ex_rc4 (fun _ => []) mem h = Ok ([MDone], m1)
  /\ mem_run (cipher_ks ex_rc4) (cipher_lim ex_rc4) false 0 mem h = Some ([MDone], m2) /\ m1 <> m2.
Proof.
  exists [1; 2; 3; 4; 5; 6; 7; 8], [MB2b 0 4 1 4]. eexists. eexists.
  split; [vm_compute; reflexivity|]. split; [vm_compute; reflexivity|]. discriminate.
Qed.
Print Assumptions C88_overlap.

(** ** The hypotheses are met *)
Definition ex_mem : list N := map N.of_nat (seq 0 200).
Definition ex_cc : cipher := CChaCha Ietf 10 (repeat 3 32) (repeat 9 12).
Definition ex_calls : list mop := [MWrite 190 7; MApply 3 100; MB2b 0 30 140 30; MB2b 0 30 140 20; MSeek 5; MPos 1000; MWrite 199 1].
Example C88_satisfiable : env_ok ex_env /\ cipher_ok ex_cc /\ N.of_nat (List.length ex_mem) < 2 ^ e_usz ex_env
  /\ Forall (buffers_ok (List.length ex_mem)) ex_calls /\ fits ex_cc 100
  /\ Forall (outside 1) ex_calls
  /\ exists m, cipher_mrun ex_env ex_cc (fun _ => [10%nat; 30%nat]) ex_mem ex_calls = Ok ([MDone; MDone; MDone; MErr; MDone; MAt 5; MDone], m)
     /\ slice m 0 6 <> slice ex_mem 0 6 /\ slice m 170 20 = slice ex_mem 170 20.
Proof.
  split; [apply all_ok|]. split; [split; checks|]. split; [vm_compute; reflexivity|].
  split; [unfold ex_mem, ex_calls; rewrite map_length, seq_length; repeat (apply Forall_cons; [cbn [buffers_ok]; first [exact Logic.I | lia]|]); apply Forall_nil|].
  split; [vm_compute; discriminate|]. split; [unfold ex_calls; repeat (apply Forall_cons; [cbn [outside]; first [exact Logic.I | lia]|]); apply Forall_nil|].
  eexists. split; [vm_compute; reflexivity|]. split; [vm_compute; discriminate|vm_compute; reflexivity].
Qed.
