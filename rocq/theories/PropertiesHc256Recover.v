(** C78: an HC-256 state gives up the key, the IV and the past, by a procedure that is
    written down here: undo the table updates, then run the expansion backwards.  Most
    states are not the state of any key. *)
From Verif Require Import Word WordLemmas Res SpecHC256 Hc256 Hc256Proofs PropCommon PropertiesPermutation PropertiesHc256 PropertiesHc256Inj.
From Coq Require Import ZArith Lia ZifyBool ZifyNat ZifyN.
Ltac Zify.zify_post_hook ::= Z.div_mod_to_equations.

(** ** The procedure *)
Definition entry (l : list N) (x : N) : N := nth (N.to_nat x) l 0.
Definition minus32 (a b : N) : N := (a + 2 ^ 32 - b mod 2 ^ 32) mod 2 ^ 32.
(** Table [own] before its entry [j] was last updated, with the other table as it was then. *)
Definition table_undo (own other : list N) (j : N) : list N :=
  let old := minus32 (minus32 (entry own j) (hc_g (entry other) (entry own (hc_sub j 3)) (entry own (hc_sub j 1023))))
               (entry own (hc_sub j 10)) in
  map (fun x => if N.of_nat x =? j then old else nth x own 0) (seq 0 1024).
(** The state before the last word. *)
Definition word_undo (s : hc) : hc :=
  let i := (h_idx s + 2047) mod 2048 in
  if i <? 1024 then {| h_p := table_undo (h_p s) (h_q s) (i mod 1024); h_q := h_q s; h_idx := i |}
  else {| h_p := h_p s; h_q := table_undo (h_q s) (h_p s) (i mod 1024); h_idx := i |}.
(** From W(i) .. W(i+15) back to W(0) .. W(15):
    W(i) = W(i+16) - (i+16) - f1(W(i+1)) - W(i+9) - f2(W(i+14)). *)
Fixpoint expand_undo (i : nat) (w : list N) : list N :=
  match i with
  | O => w
  | S i' =>
      let W k := nth k w 0 in
      expand_undo i' (minus32 (minus32 (minus32 (minus32 (W 15%nat) (N.of_nat i' + 16)) (hc_f1 (W 0%nat))) (W 8%nat)) (hc_f2 (W 13%nat))
                      :: firstn 15 w)
  end.
Definition words_le (l : list N) : list N := flat_map (fun w => [w mod 256; w / 256 mod 256; w / 65536 mod 256; w / 16777216]) l.
(** From a state [n] words after construction to the key and the IV. *)
Definition hc_recover (n : nat) (s : hc) : list N * list N :=
  let t := Nat.iter (n + 4096) word_undo s in
  let w := expand_undo 512 (firstn 16 (h_p t)) in
  (words_le (firstn 8 w), words_le (skipn 8 w)).

(** ** It undoes the updates *)
Lemma minus32_add a b : a < 2 ^ 32 -> minus32 (hc_add a b) b = a.
Proof. unfold minus32, hc_add. change (2 ^ 32) with M32. intros. lia. Qed.
Lemma hc_add_comm a b : hc_add a b = hc_add b a.
Proof. unfold hc_add. f_equal. lia. Qed.
Lemma entry_tab l F x : tab l F -> x < 1024 -> entry l x = F x.
Proof. intros (_ & _ & E) Hx. apply E, Hx. Qed.
Lemma table_undo_ok own other F U j : j < 1024 -> (forall x, x < 1024 -> F x < M32) ->
  tab own (hc_upd F j (hc_add (hc_add (F j) (F (hc_sub j 10))) (hc_g U (F (hc_sub j 3)) (F (hc_sub j 1023))))) ->
  tab other U -> tab (table_undo own other j) F.
Proof.
  intros Hj B To Tu. set (v := hc_add _ _) in To.
  assert (Eo : forall d, 0 < d < 1024 -> entry own (hc_sub j d) = F (hc_sub j d)).
  { intros d Hd. rewrite (entry_tab _ _ _ To (hc_sub_lt _ _)). unfold hc_upd. rewrite hc_sub_ne by assumption. reflexivity. }
  assert (Ej : entry own j = v).
  { rewrite (entry_tab _ _ _ To Hj). unfold hc_upd. rewrite N.eqb_refl. reflexivity. }
  assert (G : forall x, x < 1024 -> nth (N.to_nat x) (table_undo own other j) 0 = F x).
  { intros x Hx. unfold table_undo. cbv zeta.
    match goal with |- nth _ (map ?f _) _ = _ => rewrite (nth_indep _ _ (f 0%nat)) by (rewrite map_length, seq_length; lia); rewrite (map_nth f) end.
    rewrite seq_nth by lia. cbv beta. cbn [Nat.add]. rewrite N2Nat.id. destruct (N.eqb_spec x j) as [->|Hn].
    - rewrite Ej, !Eo by lia. rewrite (hc_g_agree (entry other) U) by (intros z Hz; apply (entry_tab _ _ _ Tu Hz)).
      unfold v. rewrite minus32_add by apply hc_add_lt. apply minus32_add. apply B. exact Hj.
    - destruct To as (_ & _ & E). rewrite E by exact Hx. unfold hc_upd. destruct (N.eqb_spec x j); [contradiction|reflexivity]. }
  split; [unfold table_undo; cbv zeta; rewrite map_length, seq_length; reflexivity|]. split; [|exact G].
  apply Forall_forall. intros y Hy. apply (In_nth _ _ 0) in Hy. destruct Hy as (k & Hk & <-).
  unfold table_undo in Hk. cbv zeta in Hk. rewrite map_length, seq_length in Hk.
  specialize (G (N.of_nat k) ltac:(lia)). rewrite Nat2N.id in G. rewrite G. apply B. lia.
Qed.
Lemma word_undo_ok s t i : bounded t -> hrel s (snd (hc_step i t)) (i + 1) -> hrel (word_undo s) t i.
Proof.
  intros B R. destruct t as [P Q]. unfold hc_step in R. destruct R as (HP & HQ & Hi). unfold word_undo. cbv zeta.
  assert (Ei : (h_idx s + 2047) mod 2048 = i mod 2048) by (rewrite Hi; lia). rewrite Ei.
  assert (Em : (i mod 2048) mod 1024 = i mod 1024) by lia. rewrite Em.
  assert (Hj : i mod 1024 < 1024) by (apply N.mod_lt; discriminate).
  destruct (i mod 2048 <? 1024); cbn [fst snd h_p h_q h_idx] in *.
  - split; [|split; [exact HQ|reflexivity]]. cbn [h_p fst].
    apply (table_undo_ok _ _ P Q _ Hj); [intros x Hx; apply (B x Hx)|exact HP|exact HQ].
  - split; [exact HP|]. split; [|reflexivity]. cbn [h_q snd].
    apply (table_undo_ok _ _ Q P _ Hj); [intros x Hx; apply (B x Hx)|exact HQ|exact HP].
Qed.
Lemma iter_snoc {A} (f : A -> A) n x : Nat.iter (S n) f x = Nat.iter n f (f x).
Proof. induction n as [|n IH]; [reflexivity|]. cbn [Nat.iter nat_rect] in *. unfold Nat.iter in *. rewrite IH. reflexivity. Qed.
Lemma iter_plus {A} (f : A -> A) m n x : Nat.iter (n + m) f x = Nat.iter m f (Nat.iter n f x).
Proof. revert x. induction n as [|n IH]; intros x; [reflexivity|]. cbn [Nat.add]. rewrite !iter_snoc. apply IH. Qed.
Lemma run_undo t n : bounded t -> forall s, hrel s (hc_run t n) (N.of_nat n) -> hrel (Nat.iter n word_undo s) t 0.
Proof.
  intros B. induction n as [|n IH]; intros s R; [exact R|]. rewrite iter_snoc. apply IH. apply word_undo_ok; [apply bounded_run; exact B|].
  replace (N.of_nat n + 1) with (N.of_nat (S n)) by lia. exact R.
Qed.

(** ** It undoes the expansion *)
Section Expansion.
  Variables key iv : list N.
  Hypothesis Lk : length key = 32%nat. Hypothesis Bk : bytes key.
  Hypothesis Li : length iv = 32%nat. Hypothesis Bi : bytes iv.
  Lemma expand_undo_ok i w : length w = 16%nat -> (forall k, (k < 16)%nat -> nth k w 0 = hc_W key iv (i + k)) ->
    expand_undo i w = words_of_bytes key ++ words_of_bytes iv.
  Proof.
    revert w. induction i as [|i IH]; intros w Lw Hw.
    - cbn [expand_undo]. apply (nth_ext _ _ 0 0).
      + rewrite Lw, app_length, (words_of_bytes_length 8 key Lk), (words_of_bytes_length 8 iv Li). reflexivity.
      + intros k Hk. rewrite Lw in Hk. rewrite Hw by exact Hk. apply W_init; assumption.
    - cbn [expand_undo]. cbv zeta. apply IH; [cbn [length]; rewrite firstn_length, Lw; reflexivity|].
      intros [|k] Hk.
      + cbn [nth]. rewrite !Hw by lia. replace (S i + 15)%nat with (i + 16)%nat by lia. replace (S i + 0)%nat with (i + 1)%nat by lia.
        replace (S i + 8)%nat with (i + 9)%nat by lia. replace (S i + 13)%nat with (i + 14)%nat by lia.
        rewrite (W_rec key iv Lk Bk Li Bi i). rewrite Nat.add_0_r. assert (H := W_lt key iv Lk Bk Li Bi i).
        generalize dependent (hc_W key iv i). intros x Hx. generalize (hc_f2 (hc_W key iv (i + 14))) (hc_W key iv (i + 9)) (hc_f1 (hc_W key iv (i + 1))).
        generalize (N.of_nat i + 16). intros c a b d. rewrite minus32_add by apply hc_add_lt.
        rewrite (hc_add_comm (hc_add (hc_add a b) d) x).
        assert (E : hc_add x (hc_add (hc_add a b) d) = hc_add (hc_add (hc_add x a) b) d) by (unfold hc_add; change (2 ^ 32) with M32; clear; lia).
        rewrite E, minus32_add by apply hc_add_lt. rewrite minus32_add by apply hc_add_lt. apply minus32_add. exact Hx.
      + cbn [nth]. assert (En : nth k (firstn 15 w) 0 = nth k w 0).
        { rewrite <- (firstn_skipn 15 w) at 2. rewrite app_nth1; [reflexivity|]. rewrite firstn_length, Lw. cbn [Nat.min]. lia. }
        rewrite En, Hw by lia. f_equal. lia.
  Qed.
End Expansion.
Lemma words_le_ok : forall n l, length l = (4 * n)%nat -> bytes l -> words_le (words_of_bytes l) = l.
Proof.
  induction n as [|n IH]; intros l Hl Hb; [destruct l; [reflexivity|discriminate Hl]|].
  destruct l as [|a [|b [|c [|d t]]]]; cbn [length] in Hl; try lia.
  inversion Hb as [|? ? Ha Hb1]; subst. inversion Hb1 as [|? ? Hbb Hb2]; subst. inversion Hb2 as [|? ? Hc Hb3]; subst. inversion Hb3 as [|? ? Hd Ht]; subst.
  cbn [words_of_bytes]. unfold words_le. cbn [flat_map]. change (flat_map _ (words_of_bytes t)) with (words_le (words_of_bytes t)). rewrite IH by (first [lia | exact Ht]).
  clear - Ha Hbb Hc Hd. unfold W8 in *. unfold from_le. cbn [app]. change (2 ^ 8) with 256 in *.
  f_equal; [lia|]. f_equal; [lia|]. f_equal; [lia|]. f_equal. lia.
Qed.

(** ** C78 *)
Lemma init_steps key iv : hc_init key iv = hc_run (hc_tables key iv) 4096.
Proof. unfold hc_init. reflexivity. Qed.
Lemma init_steps_mod : N.of_nat 4096 mod 2048 = 0.
Proof. reflexivity. Qed.
Lemma tables_back n key iv m s : length key = 32%nat -> bytes key -> length iv = 32%nat -> bytes iv ->
  hc_init key iv = hc_run (hc_tables key iv) m -> N.of_nat m mod 2048 = 0 ->
  hrel s (hc_run (hc_init key iv) n) (N.of_nat n) -> hrel (Nat.iter (n + m) word_undo s) (hc_tables key iv) 0.
Proof.
  intros Lk Bk Li Bi Im Hm R.
  assert (T : bounded (hc_tables key iv)) by (intros x Hx; unfold hc_tables; cbn [fst snd]; split; apply W_lt; assumption).
  assert (T' : bounded (hc_init key iv)) by (rewrite Im; apply bounded_run; exact T).
  apply (run_undo _ _ T') in R. rewrite iter_plus. rewrite Im in R. apply (run_undo _ _ T).
  destruct R as (A & B & C). split; [exact A|]. split; [exact B|]. rewrite Hm. exact C.
Qed.
Lemma recover_from n key iv m s : length key = 32%nat -> bytes key -> length iv = 32%nat -> bytes iv ->
  hrel (Nat.iter (n + m) word_undo s) (hc_tables key iv) 0 ->
  let w := expand_undo 512 (firstn 16 (h_p (Nat.iter (n + m) word_undo s))) in (words_le (firstn 8 w), words_le (skipn 8 w)) = (key, iv).
Proof.
  intros Lk Bk Li Bi R0 w. subst w. destruct R0 as ((Lp & _ & Ep) & _ & _).
  generalize dependent (h_p (Nat.iter (n + m) word_undo s)). intros p Lp Ep.
  rewrite (expand_undo_ok key iv Lk Bk Li Bi).
  - assert (K := words_of_bytes_length 8 key Lk). rewrite firstn_app, skipn_app, K, firstn_all2, skipn_all2 by (rewrite K; apply le_n).
    cbn [Nat.sub firstn skipn app]. rewrite app_nil_r, !(words_le_ok 8) by assumption. reflexivity.
  - rewrite firstn_length, Lp. reflexivity.
  - intros k Hk. assert (E : nth k (firstn 16 p) 0 = nth k p 0).
    { rewrite <- (firstn_skipn 16 p) at 2. rewrite app_nth1; [reflexivity|]. rewrite firstn_length, Lp. exact Hk. }
    rewrite E. specialize (Ep (N.of_nat k) ltac:(lia)). rewrite Nat2N.id in Ep. rewrite Ep. unfold hc_tables. cbn [fst]. rewrite Nat2N.id. f_equal. lia.
Qed.
(** The key and the IV, from the state after any number of words. *)
Theorem C78_recover ck usz key iv n s o u : usize usz -> octets 32 key -> octets 32 iv ->
  hc_new ck usz key iv = Ok s -> hc_write ck usz n s = Ok (o, u) -> hc_recover n u = (key, iv).
Proof.
  intros Hu [Lk Bk] [Li Bi] Es Ew.
  destruct (hc_new_ok key iv Lk Bk Li Bi ck usz Hu) as (s1 & E1 & R1). rewrite E1 in Es. apply (f_equal (fun r => match r with Ok p => p | Panic => s1 end)) in Es. cbv beta iota in Es. subst s1.
  destruct (hc_write_ok ck usz n (hc_init key iv) Hu 0 s R1) as (u1 & F1 & S1).
  rewrite F1 in Ew. apply (f_equal (fun r => match r with Ok p => snd p | Panic => u1 end)) in Ew. cbn [snd] in Ew. subst u1.
  cbn [Nat.add] in S1. unfold hc_recover. cbv zeta. apply (recover_from n key iv 4096 u Lk Bk Li Bi).
  exact (tables_back n key iv 4096 u Lk Bk Li Bi (init_steps key iv) init_steps_mod S1).
Qed.
(** So a state can be tested: it is the state of some key and IV after [n] words exactly
    when the recovered pair leads back to it. *)
Theorem C78_test ck usz n u : usize usz ->
  (exists key iv s o, octets 32 key /\ octets 32 iv /\ hc_new ck usz key iv = Ok s /\ hc_write ck usz n s = Ok (o, u))
  <-> (octets 32 (fst (hc_recover n u)) /\ octets 32 (snd (hc_recover n u))
       /\ exists s o, hc_new ck usz (fst (hc_recover n u)) (snd (hc_recover n u)) = Ok s /\ hc_write ck usz n s = Ok (o, u)).
Proof.
  intros Hu. split.
  - intros (key & iv & s & o & Hk & Hi & Es & Ew). rewrite (C78_recover ck usz key iv n s o u Hu Hk Hi Es Ew).
    cbn [fst snd]. split; [exact Hk|]. split; [exact Hi|]. exists s, o. auto.
  - intros (Hk & Hi & s & o & Es & Ew). exists (fst (hc_recover n u)), (snd (hc_recover n u)), s, o. auto.
Qed.
(** Undoing a word really is the inverse of generating one, in both directions. *)
Theorem C78_undo ck usz s w u : usize usz -> hvalid s -> gen_word ck usz s = Ok (w, u) -> word_undo u = s.
Proof.
  intros Hu Hs Es.
  destruct (gen_word_ok ck usz s _ _ Hu (hvalid_rel s Hs)) as (s' & Es' & Rs).
  rewrite Es' in Es. apply (f_equal (fun r => match r with Ok p => snd p | Panic => s' end)) in Es. cbn [snd] in Es. subst s'.
  assert (Bs := hrel_bounded _ _ _ (hvalid_rel s Hs)). apply (word_undo_ok _ _ _ Bs) in Rs.
  assert (V := hrel_valid _ _ _ Rs).
  destruct Rs as ((_ & _ & EP) & (_ & _ & EQ) & I). cbn [fst snd] in EP, EQ.
  destruct Hs as ((Lp & _) & (Lq & _) & Hi). destruct V as ((Lp' & _) & (Lq' & _) & _).
  rewrite N.mod_small in I by exact Hi.
  destruct (word_undo u) as [p' q' i'], s as [p q i]. cbn [h_p h_q h_idx] in *. subst i'. f_equal.
  - apply (nth_ext _ _ 0 0); [congruence|]. intros k Hk. specialize (EP (N.of_nat k) ltac:(lia)). rewrite Nat2N.id in EP. exact EP.
  - apply (nth_ext _ _ 0 0); [congruence|]. intros k Hk. specialize (EQ (N.of_nat k) ltac:(lia)). rewrite Nat2N.id in EQ. exact EQ.
Qed.

Lemma write_undo ck usz k : usize usz -> forall s o u, hvalid s -> hc_write ck usz k s = Ok (o, u) -> Nat.iter k word_undo u = s.
Proof.
  intros Hu. induction k as [|k IH]; intros s o u Hs E.
  - cbn [hc_write] in E. cbn [Nat.iter nat_rect]. change (u = s). congruence.
  - cbn [hc_write] in E. destruct (C41_no_panic ck usz s Hu Hs) as (w & s1 & E1 & _ & H1). rewrite E1 in E. cbn [bind] in E.
    destruct (hc_write ck usz k s1) as [[o2 s2]|] eqn:E2; cbn [bind] in E; [|discriminate E].
    assert (s2 = u) by congruence. subst s2.
    change (Nat.iter (S k) word_undo u) with (word_undo (Nat.iter k word_undo u)). rewrite (IH s1 o2 u H1 E2).
    apply (C78_undo ck usz s w s1 Hu Hs E1).
Qed.
(** The past of a state needs no key: any number of words can be taken back. *)
Theorem C78_past ck usz s k o u : usize usz -> hvalid s -> hc_write ck usz k s = Ok (o, u) -> Nat.iter k word_undo u = s.
Proof. intros Hu Hs E. apply (write_undo ck usz k Hu s o u Hs E). Qed.

(** Valid states that no key and IV lead to, at any position. *)
Definition zeros_hc : hc := {| h_p := repeat 0 1024; h_q := repeat 0 1024; h_idx := 0 |}.
Lemma zeros_valid : hvalid zeros_hc.
Proof.
  assert (F : forall n, Forall (fun w => w < 2 ^ 32) (repeat 0 n)) by (induction n; constructor; [reflexivity|assumption]).
  split; [split; [apply repeat_length|apply F]|]. split; [split; [apply repeat_length|apply F]|reflexivity].
Qed.
Lemma no_key key iv m : length key = 32%nat -> bytes key -> length iv = 32%nat -> bytes iv -> ~ hrel zeros_hc (hc_tables key iv) m.
Proof.
  intros Lk Bk Li Bi ((_ & _ & Ep) & _ & _).
  assert (Z : forall k, (512 <= k < 1536)%nat -> hc_W key iv k = 0).
  { intros k Hk. specialize (Ep (N.of_nat (k - 512)) ltac:(lia)). unfold hc_tables, zeros_hc in Ep. cbn [fst h_p] in Ep.
    rewrite Nat2N.id in Ep. replace (k - 512 + 512)%nat with k in Ep by lia. rewrite <- Ep. apply nth_repeat. }
  assert (R := W_rec key iv Lk Bk Li Bi 512). rewrite !Z in R by lia. discriminate R.
Qed.
Theorem C78_unreachable ck usz n : usize usz ->
  exists u, hvalid u /\ forall key iv s o, octets 32 key -> octets 32 iv -> hc_new ck usz key iv = Ok s -> hc_write ck usz n s <> Ok (o, u).
Proof.
  intros Hu. destruct (C41_run ck usz ck usz zeros_hc (n + 4096) Hu Hu zeros_valid) as (o & u & E & _ & V & _).
  exists u. split; [exact V|]. intros key iv s o' [Lk Bk] [Li Bi] Es Ew.
  apply (write_undo ck usz _ Hu zeros_hc o u zeros_valid) in E.
  destruct (hc_new_ok key iv Lk Bk Li Bi ck usz Hu) as (s1 & E1 & R1). rewrite E1 in Es. apply (f_equal (fun r => match r with Ok p => p | Panic => s1 end)) in Es. cbv beta iota in Es. subst s1.
  destruct (hc_write_ok ck usz n (hc_init key iv) Hu 0 s R1) as (u1 & F1 & S1).
  rewrite F1 in Ew. apply (f_equal (fun r => match r with Ok p => snd p | Panic => u1 end)) in Ew. cbn [snd] in Ew. subst u1.
  cbn [Nat.add] in S1. apply (no_key key iv 0 Lk Bk Li Bi). rewrite <- E. exact (tables_back n key iv 4096 u Lk Bk Li Bi (init_steps key iv) init_steps_mod S1).
Qed.

(** A state in the second half of the cycle, the next word, and the state recovered from it;
    the expansion from a concrete window; and a key, an IV and a run that meet the hypotheses. *)
Example C78_satisfiable :
  (let s := {| h_p := map N.of_nat (seq 7 1024); h_q := map N.of_nat (seq 2000 1024); h_idx := 1030 |} in
   match gen_word true (2 ^ 64) s with Ok (w, u) => w <> 0 /\ h_idx u = 1031 /\ h_q u <> h_q s /\ h_q (word_undo u) = h_q s /\ h_idx (word_undo u) = 1030 | Panic => False end)
  /\ expand_undo 20 (hc_window (map N.of_nat (seq 0 32)) (map N.of_nat (seq 100 32)) 20)
     = hc_words (map N.of_nat (seq 0 32)) ++ hc_words (map N.of_nat (seq 100 32))
  /\ (exists key iv s o u, octets 32 key /\ octets 32 iv /\ hc_new true (2 ^ 64) key iv = Ok s /\ hc_write true (2 ^ 64) 5 s = Ok (o, u)
      /\ hc_recover 5 u = (key, iv) /\ key <> iv).
Proof.
  split; [vm_compute; split; [discriminate|]; split; [reflexivity|]; split; [discriminate|]; split; reflexivity|].
  split; [vm_compute; reflexivity|].
  assert (Hu : usize (2 ^ 64)) by (right; right; reflexivity).
  assert (Hk : octets 32 (repeat 1 32)) by (split; [reflexivity|repeat constructor]).
  assert (Hi : octets 32 (repeat 2 32)) by (split; [reflexivity|repeat constructor]).
  destruct (C41_new true (2 ^ 64) _ _ Hu Hk Hi) as (s & Es & V). destruct (C41_run true (2 ^ 64) true (2 ^ 64) s 5 Hu Hu V) as (o & u & E & _).
  exists (repeat 1 32), (repeat 2 32), s, o, u. split; [exact Hk|]. split; [exact Hi|]. split; [exact Es|]. split; [exact E|].
  split; [exact (C78_recover _ _ _ _ 5 s o u Hu Hk Hi Es E)|discriminate].
Qed.

Print Assumptions C78_recover.
Print Assumptions C78_test.
Print Assumptions C78_undo.
Print Assumptions C78_past.
Print Assumptions C78_unreachable.
