(** Final theorem C85: scrypt on the Salsa core.

    [SalsaCore::from_raw_state] ("mainly intended for the `scrypt` crate",
    salsa20/src/lib.rs:66) gives a core on any 16 words; the scrypt crate takes its Salsa20/8
    function from one keystream block of such a core.  The three functions of that crate
    (scrypt 0.11, [romix.rs]) are written here as a caller of the model; RFC 7914 is in
    [SpecScrypt]. *)
From Coq Require Import String.
From Verif Require Import Word Res WordLemmas Hex PropCommon SpecSalsa SpecScrypt Salsa SalsaProofs PropertiesSalsa.
From Coq Require Import ZArith Lia ZifyBool ZifyNat ZifyN.
Ltac Zify.zify_post_hook ::= Z.div_mod_to_equations.
Local Open Scope string_scope.
Local Open Scope N_scope.
Local Open Scope list_scope.

(** ** The caller *)
(** [output[pos..pos + x.len()].copy_from_slice(&x)] *)
Definition put (pos : nat) (x out : list N) : list N := firstn pos out ++ x ++ skipn (pos + List.length x) out.
(** One turn of the loop of [scrypt_block_mix]: [x ^ chunk] into words, a core of 4 double
    rounds on them, its first keystream block into [x], and from there to the output. *)
Definition mix_turn (ck : bool) (len i : nat) (chunk x out : list N) : Res (list N * list N) :=
  let t2 := words_of_bytes (map (fun p => N.lxor (fst p) (snd p)) (combine x chunk)) in
  match salsa_gen_ks_block ck 4 (from_raw_state t2) with
  | Panic => Panic
  | Ok (x', _) =>
      let pos := (if Nat.even i then (i / 2) * 64 else (i / 2) * 64 + len / 2)%nat in
      Ok (x', put pos x' out)
  end.
Fixpoint mix_loop (ck : bool) (len i : nat) (chunks : list (list N)) (x out : list N) {struct chunks} : Res (list N) :=
  match chunks with
  | [] => Ok out
  | c :: cs => match mix_turn ck len i c x out with Panic => Panic | Ok (x', out') => mix_loop ck len (S i) cs x' out' end
  end.
(** [input.chunks(64)] *)
Definition chunks64 (l : list N) : list (list N) := map (fun i => firstn 64 (skipn (64 * i) l)) (seq 0 (List.length l / 64)).
Definition scrypt_block_mix (ck : bool) (input output : list N) : Res (list N) :=
  mix_loop ck (List.length input) 0 (chunks64 input) (skipn (List.length input - 64) input) output.
(** [scrypt_ro_mix]: fill [v] with the successive values of [b] ([fill]), then [n] times mix
    in the chunk of [v] chosen by the low word of the last block ([turns]). *)
Fixpoint fill (ck : bool) (n : nat) (b : list N) {struct n} : Res (list N * list N) :=
  match n with
  | O => Ok ([], b)
  | S n' => match scrypt_block_mix ck b b with
            | Panic => Panic
            | Ok b' => match fill ck n' b' with Panic => Panic | Ok (v, r) => Ok (b ++ v, r) end
            end
  end.
Definition integerify (n : N) (x : list N) : N :=
  N.land (nth 0 (words_of_bytes (firstn 4 (skipn (List.length x - 64) x))) 0) (n - 1).
Fixpoint turns (ck : bool) (n : N) (k : nat) (v b : list N) {struct k} : Res (list N) :=
  match k with
  | O => Ok b
  | S k' =>
      let j := N.to_nat (integerify n b) in
      let len := List.length b in
      let t := map (fun p => N.lxor (fst p) (snd p)) (combine b (firstn len (skipn (j * len) v))) in
      match scrypt_block_mix ck t b with Panic => Panic | Ok b' => turns ck n k' v b' end
  end.
Definition scrypt_ro_mix (ck : bool) (n : N) (b : list N) : Res (list N) :=
  match fill ck (N.to_nat n) b with Panic => Panic | Ok (v, b') => turns ck n (N.to_nat n) v b' end.

(** Bytes 32 to 39 all ones: the words that serve as the block counter. *)
Definition topped (t : list N) : bool := forallb (fun x => x =? 255) (firstn 8 (skipn 32 t)).

(** ** Proofs *)
Lemma sc_xor_len a b : List.length a = List.length b -> List.length (sc_xor a b) = List.length a.
Proof. intros H. unfold sc_xor. rewrite map_length, combine_length. lia. Qed.
Lemma lxor_byte a b : a < 256 -> b < 256 -> N.lxor a b < 256.
Proof.
  intros Ha Hb. destruct (N.eq_dec (N.lxor a b) 0) as [->|H]; [reflexivity|].
  change 256 with (2 ^ 8). apply N.log2_lt_pow2; [lia|]. eapply N.le_lt_trans; [apply N.log2_lxor|].
  apply N.max_lub_lt.
  - destruct (N.eq_dec a 0) as [->|]; [reflexivity|]. apply N.log2_lt_pow2; [lia|exact Ha].
  - destruct (N.eq_dec b 0) as [->|]; [reflexivity|]. apply N.log2_lt_pow2; [lia|exact Hb].
Qed.
Lemma sc_xor_bytes a : forall b, bytes a -> bytes b -> bytes (sc_xor a b).
Proof.
  unfold bytes. induction a as [|x a IH]; intros [|y b] Ha Hb; try constructor; inversion Ha; inversion Hb; subst; cbn [sc_xor combine map fst snd].
  - apply lxor_byte; assumption.
  - apply IH; assumption.
Qed.
Lemma four_ones a b c d : a < 256 -> b < 256 -> c < 256 -> d < 256 ->
  (a + 2 ^ 8 * b + 2 ^ 16 * c + 2 ^ 24 * d = 2 ^ 32 - 1 <-> a = 255 /\ b = 255 /\ c = 255 /\ d = 255).
Proof.
  change (2 ^ 8) with 256. change (2 ^ 16) with 65536. change (2 ^ 24) with 16777216. change (2 ^ 32 - 1) with 4294967295. lia.
Qed.
Lemma topped_words t : List.length t = 64%nat -> bytes t ->
  topped t = true <-> nth 8 (words_of_bytes t) 0 = 2 ^ 32 - 1 /\ nth 9 (words_of_bytes t) 0 = 2 ^ 32 - 1.
Proof.
  intros L B. rewrite (ss_words_eq 16 t L). unfold topped, ss_words.
  rewrite !(nth_indep _ 0 (ss_littleendian t 0)) by (rewrite map_length, seq_length; lia).
  rewrite !map_nth, !seq_nth by lia. cbn [Nat.add]. unfold ss_littleendian. cbn [Nat.mul Nat.add].
  assert (E : firstn 8 (skipn 32 t) = map (fun i => nth i t 0) [32; 33; 34; 35; 36; 37; 38; 39]%nat).
  { do 64 (destruct t as [|? t]; [discriminate L|]). reflexivity. }
  rewrite E. clear E.
  assert (N : forall i, nth i t 0 < 256).
  { intros i. destruct (nth_in_or_default i t 0) as [H | ->]; [|reflexivity]. unfold bytes in B. rewrite Forall_forall in B. apply B. exact H. }
  rewrite !four_ones by apply N.
  cbn [map forallb]. rewrite !andb_true_iff, !N.eqb_eq. tauto.
Qed.
(** One call of the core. *)
Lemma core8 ck t : List.length t = 64%nat -> bytes t ->
  match salsa_gen_ks_block ck 4 (from_raw_state (words_of_bytes t)) with
  | Ok (x, _) => (ck && topped t)%bool = false /\ x = sc_core t
  | Panic => (ck && topped t)%bool = true
  end.
Proof.
  intros L B.
  assert (W : u32x16 (words_of_bytes t)) by (split; [apply words_of_bytes_length; exact L|apply words_of_bytes_wf; exact B]).
  assert (T := topped_words t L B).
  assert (S : ss_bytes (ss_core 4 (words_of_bytes t)) = sc_core t) by (unfold sc_core, ss_hash; rewrite (ss_words_eq 16 t L); reflexivity).
  destruct (C36_from_raw_state ck 4 (words_of_bytes t) W) as [[st' E] | (-> & A & C & E)].
  - rewrite E, S. split; [|reflexivity]. destruct ck; [|reflexivity]. destruct (topped t) eqn:Et; [|reflexivity].
    exfalso. destruct (proj1 T eq_refl) as [A C].
    assert (P : salsa_gen_ks_block true 4 (from_raw_state (words_of_bytes t)) = Panic).
    { apply salsa_gen_panic; [exact W|]. unfold from_raw_state, s_ctr, get. cbn [N.to_nat Pos.to_nat Pos.iter_op Nat.add]. change (2 ^ 32) with M32 in *. lia. }
    rewrite P in E. discriminate.
  - rewrite E. cbn [andb]. apply T. split; assumption.
Qed.
Definition block (b : list N) : Prop := List.length b = 64%nat /\ bytes b.
Lemma sc_core_block t : List.length t = 64%nat -> bytes t -> block (sc_core t).
Proof.
  intros L B.
  assert (W : u32x16 (words_of_bytes t)) by (split; [apply words_of_bytes_length; exact L|apply words_of_bytes_wf; exact B]).
  unfold sc_core, ss_hash. rewrite <- (ss_words_eq 16 t L). rewrite <- ss_bytes_eq, <- s_run_rounds_spec by exact W.
  pose proof (s_run_rounds_wf 4 _ W) as R. split; [rewrite bytes_of_words_length, (proj1 R); reflexivity|].
  apply bytes_of_words_bytes.
Qed.
Local Opaque sc_core.
Definition slot (len i : nat) : nat := (if Nat.even i then (i / 2) * 64 else (i / 2) * 64 + len / 2)%nat.
Fixpoint writes (len i : nat) (ys : list (list N)) (out : list N) {struct ys} : list N :=
  match ys with [] => out | y :: ys' => writes len (S i) ys' (put (slot len i) y out) end.
Lemma xor_block x c : block x -> block c -> block (sc_xor x c).
Proof.
  intros [Lx Bx] [Lc Bc]. split; [rewrite sc_xor_len; congruence|]. apply sc_xor_bytes; assumption.
Qed.
Lemma chain_blocks cs : forall x, block x -> Forall block cs -> Forall block (sc_chain x cs).
Proof.
  induction cs as [|c cs IH]; intros x Hx F; [constructor|]. inversion F as [|? ? Fc F']; subst.
  destruct (xor_block x c Hx Fc) as [L B]. pose proof (sc_core_block _ L B) as K. cbn [sc_chain]. constructor; [exact K|]. apply IH; assumption.
Qed.
Lemma chain_length cs : forall x, List.length (sc_chain x cs) = List.length cs.
Proof. induction cs as [|c cs IH]; intros x; [reflexivity|]. cbn [sc_chain List.length]. rewrite IH. reflexivity. Qed.
Lemma loop_ok ck len cs : forall i x out, block x -> Forall block cs ->
  mix_loop ck len i cs x out = if (ck && existsb topped (sc_chain_in x cs))%bool then Panic else Ok (writes len i (sc_chain x cs) out).
Proof.
  induction cs as [|c cs IH]; intros i x out Hx F; [cbn; rewrite andb_false_r; reflexivity|].
  inversion F as [|? ? Fc F']; subst. destruct (xor_block x c Hx Fc) as [L B]. pose proof (core8 ck _ L B) as K.
  cbn [mix_loop]. unfold mix_turn. fold (sc_xor x c). cbv zeta.
  cbn [sc_chain_in sc_chain existsb writes]. cbv zeta.
  destruct (salsa_gen_ks_block ck 4 (from_raw_state (words_of_bytes (sc_xor x c)))) as [[x' st']|].
  - destruct K as [K ->]. fold (slot len i). rewrite (IH (S i) _ _ (sc_core_block _ L B) F').
    destruct ck; [|reflexivity]. cbn [andb] in *. rewrite K. reflexivity.
  - destruct ck; [|discriminate K]. cbn [andb] in *. rewrite K. reflexivity.
Qed.
Lemma put_app a b c y : List.length b = List.length y -> put (List.length a) y (a ++ b ++ c) = a ++ y ++ c.
Proof.
  intros L. unfold put. rewrite firstn_app, Nat.sub_diag, firstn_all, firstn_O, app_nil_r. f_equal. f_equal.
  rewrite app_assoc, skipn_app, app_length, <- L, Nat.sub_diag. rewrite skipn_all2 by (rewrite app_length; lia). reflexivity.
Qed.
Lemma concat_len (l : list (list N)) : Forall (fun b => List.length b = 64%nat) l -> List.length (concat l) = (64 * List.length l)%nat.
Proof. induction l as [|b l IH]; intros F; [reflexivity|]. inversion F; subst. cbn [concat List.length]. rewrite app_length, IH by assumption. lia. Qed.
Lemma writes_ok m : forall k ys E R1 O R2, List.length ys = (2 * m)%nat -> Forall (fun b => List.length b = 64%nat) ys ->
  List.length E = (64 * k)%nat -> List.length O = (64 * k)%nat -> List.length R1 = (64 * m)%nat -> List.length R2 = (64 * m)%nat ->
  writes (128 * (k + m)) (2 * k) ys (E ++ R1 ++ O ++ R2) = (E ++ concat (sc_evens ys)) ++ O ++ concat (sc_odds ys).
Proof.
  induction m as [|m IH]; intros k ys E R1 O R2 Ly F LE LO L1 L2.
  - destruct ys; [|discriminate Ly]. destruct R1; [|discriminate L1]. destruct R2; [|discriminate L2].
    cbn [writes sc_evens sc_odds concat app]. rewrite !app_nil_r. reflexivity.
  - destruct ys as [|y [|z ys]]; cbn [List.length] in Ly; try (exfalso; lia).
    inversion F as [|? ? Fy F1]; subst. inversion F1 as [|? ? Fz F2]; subst. clear F F1.
    cbn [writes].
    assert (S0 : slot (128 * (k + S m)) (2 * k) = List.length E).
    { unfold slot. rewrite Nat.even_mul. cbn [Nat.even orb]. rewrite LE. lia. }
    assert (S1 : slot (128 * (k + S m)) (S (2 * k)) = List.length (E ++ R1 ++ O)).
    { unfold slot. rewrite Nat.even_succ, <- Nat.negb_even, Nat.even_mul. cbn [Nat.even orb negb]. rewrite !app_length, LE, LO, L1. lia. }
    rewrite <- (firstn_skipn 64 R1), <- (firstn_skipn 64 R2).
    assert (A1 : List.length (firstn 64 R1) = 64%nat) by (rewrite firstn_length; lia).
    assert (A2 : List.length (firstn 64 R2) = 64%nat) by (rewrite firstn_length; lia).
    assert (B1 : List.length (skipn 64 R1) = (64 * m)%nat) by (rewrite skipn_length; lia).
    assert (B2 : List.length (skipn 64 R2) = (64 * m)%nat) by (rewrite skipn_length; lia).
    rewrite S0, S1. clear S0 S1.
    replace (List.length (E ++ R1 ++ O)) with (List.length (E ++ y ++ skipn 64 R1 ++ O)) by (rewrite !app_length; lia).
    set (r1 := skipn 64 R1) in *. set (r2 := skipn 64 R2) in *. set (q1 := firstn 64 R1) in *. set (q2 := firstn 64 R2) in *. clearbody r1 r2 q1 q2.
    rewrite <- !app_assoc. rewrite put_app by congruence.
    replace (E ++ y ++ r1 ++ O ++ q2 ++ r2) with ((E ++ y ++ r1 ++ O) ++ q2 ++ r2) by (rewrite <- !app_assoc; reflexivity).
    rewrite put_app by congruence.
    replace ((E ++ y ++ r1 ++ O) ++ z ++ r2) with ((E ++ y) ++ r1 ++ (O ++ z) ++ r2) by (rewrite <- !app_assoc; reflexivity).
    replace (128 * (k + S m))%nat with (128 * (S k + m))%nat by lia. replace (S (S (2 * k))) with (2 * S k)%nat by lia.
    rewrite (IH (S k) ys (E ++ y) r1 (O ++ z) r2); try assumption; try (rewrite app_length; lia); [|lia].
    cbn [sc_evens sc_odds]. destruct ys as [|w ys]; cbn [sc_evens sc_odds concat]; rewrite <- ?app_assoc; reflexivity.
Qed.
Lemma split_blocks b m : List.length b = (64 * m)%nat -> bytes b -> Forall block (sc_split b) /\ List.length (sc_split b) = m.
Proof.
  intros L B. unfold sc_split. rewrite map_length, seq_length, L. split; [|lia].
  apply Forall_forall. intros x Hx. apply in_map_iff in Hx as (i & <- & Hi). apply in_seq in Hi. split.
  - rewrite firstn_length, skipn_length. lia.
  - unfold bytes in *. rewrite Forall_forall in *. intros z Hz. apply B.
    rewrite <- (firstn_skipn (64 * i) b). apply in_or_app. right. rewrite <- (firstn_skipn 64 (skipn (64 * i) b)). apply in_or_app. left. exact Hz.
Qed.
Lemma split_last b m : List.length b = (64 * S m)%nat -> last (sc_split b) [] = skipn (List.length b - 64) b.
Proof.
  intros L. unfold sc_split. replace (List.length b / 64)%nat with (S m) by lia.
  rewrite seq_S, map_app. cbn [map]. rewrite last_last. cbn [Nat.add]. replace (List.length b - 64)%nat with (64 * m)%nat by lia.
  apply firstn_all2. rewrite skipn_length. lia.
Qed.
(** A whole buffer of [r] pairs of blocks. *)
Definition buffer (r : nat) (b : list N) : Prop := List.length b = (128 * S r)%nat /\ bytes b.
Lemma evens_odds {A} (l : list A) : forall m, List.length l = (2 * m)%nat -> List.length (sc_evens l) = m /\ List.length (sc_odds l) = m.
Proof.
  intros m. revert l. induction m as [|m IH]; intros [|a [|c l]] L; cbn [List.length] in L; try (exfalso; lia); [split; reflexivity|].
  destruct (IH l ltac:(lia)) as [E O]. cbn [sc_evens sc_odds]. destruct l as [|x l]; cbn [List.length sc_evens sc_odds] in *; lia.
Qed.
Lemma evens_in {A} (l : list A) : forall n x, (List.length l <= n)%nat -> In x (sc_evens l) -> In x l.
Proof.
  intros n. revert l. induction n as [|n IH]; intros [|a [|c l]] x L I; cbn in *; try contradiction; try lia; [exact I|].
  destruct I as [I|I]; [left; exact I|]. right. right. apply IH; [lia|exact I].
Qed.
Lemma bytes_concat (l : list (list N)) : Forall block l -> bytes (concat l).
Proof. unfold bytes. induction l as [|b l IH]; intros F; [constructor|]. inversion F as [|? ? [_ H] F']; subst. cbn. apply Forall_app. split; [exact H|apply IH; exact F']. Qed.
Lemma Forall_block_len l : Forall block l -> Forall (fun b : list N => List.length b = 64%nat) l.
Proof. intros F. eapply Forall_impl; [|exact F]. intros a [H _]. exact H. Qed.
Lemma blockmix_parts r b : buffer r b ->
  let x := skipn (List.length b - 64) b in block x /\ Forall block (sc_split b) /\ last (sc_split b) [] = x /\ List.length (sc_split b) = (2 * S r)%nat.
Proof.
  intros [L B] x. destruct (split_blocks b (2 * S r) ltac:(lia) B) as [F N].
  split; [|split; [exact F|split; [|exact N]]].
  - split; [unfold x; rewrite skipn_length; lia|]. unfold x, bytes in *. rewrite Forall_forall in *. intros z Hz. apply B.
    rewrite <- (firstn_skipn (List.length b - 64) b). apply in_or_app. right. exact Hz.
  - apply (split_last b (S (2 * r))). lia.
Qed.
Lemma blockmix_buffer r b : buffer r b -> buffer r (sc_blockmix b).
Proof.
  intros H. destruct (blockmix_parts r b H) as (Hx & F & E & N). unfold sc_blockmix. rewrite E. cbv zeta.
  set (x := skipn _ b) in *. clearbody x. pose proof (chain_blocks _ x Hx F) as C. pose proof (chain_length (sc_split b) x) as CL. rewrite N in CL.
  set (y := sc_chain x (sc_split b)) in *. clearbody y. destruct (evens_odds y (S r) CL) as [Ne No].
  assert (G : Forall block (sc_evens y ++ sc_odds y)).
  { apply Forall_forall. intros z Hz. rewrite Forall_forall in C. apply C. apply in_app_or in Hz as [Hz|Hz]; [eapply evens_in; [|exact Hz]; reflexivity|].
    destruct y as [|a y]; [destruct Hz|]. right. eapply evens_in; [|exact Hz]. reflexivity. }
  split; [|apply bytes_concat; exact G].
  rewrite concat_len, app_length, Ne, No by (apply Forall_block_len; exact G). lia.
Qed.

(** scryptBlockMix *)
Theorem C85_blockmix ck r b out : buffer r b -> List.length out = List.length b ->
  scrypt_block_mix ck b out = if (ck && existsb topped (sc_blockmix_in b))%bool then Panic else Ok (sc_blockmix b).
Proof.
  intros H Lo. destruct (blockmix_parts r b H) as (Hx & F & E & N). destruct H as [L B].
  unfold scrypt_block_mix. change (chunks64 b) with (sc_split b). rewrite loop_ok by assumption.
  unfold sc_blockmix_in, sc_blockmix. rewrite E. cbv zeta. set (x := skipn _ b) in *. clearbody x.
  destruct (ck && existsb topped (sc_chain_in x (sc_split b)))%bool; [reflexivity|]. f_equal.
  pose proof (chain_blocks _ x Hx F) as C. pose proof (chain_length (sc_split b) x) as CL. rewrite N in CL.
  pose proof (writes_ok (S r) 0 (sc_chain x (sc_split b)) [] (firstn (64 * S r) out) [] (skipn (64 * S r) out)) as W.
  cbn [app Nat.mul] in W. rewrite firstn_skipn in W. rewrite L. change (0 + S r)%nat with (S r) in W.
  rewrite concat_app. apply W; try reflexivity.
  - rewrite CL. lia.
  - apply Forall_block_len. exact C.
  - rewrite firstn_length. lia.
  - rewrite skipn_length. lia.
Qed.
Print Assumptions C85_blockmix.

Lemma integerify_ok r k x : buffer r x -> k <= 32 -> integerify (2 ^ k) x = sc_integerify x mod 2 ^ k.
Proof.
  intros [L B] K. unfold integerify, sc_integerify.
  assert (T : bytes (skipn (List.length x - 64) x)).
  { unfold bytes in *. rewrite Forall_forall in *. intros z Hz. apply B. rewrite <- (firstn_skipn (List.length x - 64) x). apply in_or_app. right. exact Hz. }
  assert (LT : List.length (skipn (List.length x - 64) x) = 64%nat) by (rewrite skipn_length; lia).
  set (y := skipn _ x) in *. clearbody y. clear L B.
  replace (2 ^ k - 1) with (N.ones k) by (rewrite N.ones_equiv; lia). rewrite N.land_ones.
  do 4 (destruct y as [|? y]; [discriminate LT|]). clear LT. unfold bytes in T.
  assert (W : nth 0 (words_of_bytes (firstn 4 (n :: n0 :: n1 :: n2 :: y))) 0 = n + 256 * (n0 + 256 * (n1 + 256 * n2))).
  { cbn [firstn]. rewrite (ss_words_eq 1) by reflexivity. unfold ss_words. cbn [seq map nth]. unfold ss_littleendian. cbn [Nat.mul Nat.add nth]. lia. }
  rewrite W. cbn [sc_int]. set (z := sc_int y). clearbody z.
  replace (n + 256 * (n0 + 256 * (n1 + 256 * (n2 + 256 * z)))) with (n + 256 * (n0 + 256 * (n1 + 256 * n2)) + (2 ^ (32 - k) * z) * 2 ^ k).
  - symmetry. apply N.mod_add. apply N.pow_nonzero. discriminate.
  - replace (2 ^ (32 - k) * z * 2 ^ k) with (2 ^ (32 - k) * 2 ^ k * z) by lia. rewrite <- N.pow_add_r. replace (32 - k + k) with 32 by lia. change (2 ^ 32) with (256 * 256 * 256 * 256). lia.
Qed.
Lemma v_shift b i : sc_v (sc_blockmix b) i = sc_v b (S i).
Proof.
  unfold sc_v. induction i as [|i IH]; [reflexivity|]. change (Nat.iter (S i) sc_blockmix (sc_blockmix b)) with (sc_blockmix (Nat.iter i sc_blockmix (sc_blockmix b))).
  rewrite IH. reflexivity.
Qed.
Lemma v_buffer r b i : buffer r b -> buffer r (sc_v b i).
Proof. intros H. unfold sc_v. induction i as [|i IH]; [exact H|]. apply (blockmix_buffer r _ IH). Qed.
Lemma flat_map_map {A B C} (f : B -> list C) (g : A -> B) l : flat_map f (map g l) = flat_map (fun x => f (g x)) l.
Proof. induction l as [|a l IH]; [reflexivity|]. cbn. rewrite IH. reflexivity. Qed.
Lemma fill_ok ck r n : forall b, buffer r b ->
  fill ck n b = if (ck && existsb topped (flat_map (fun i => sc_blockmix_in (sc_v b i)) (seq 0 n)))%bool then Panic
                else Ok (concat (map (sc_v b) (seq 0 n)), sc_v b n).
Proof.
  induction n as [|n IH]; intros b H; [cbn; rewrite andb_false_r; reflexivity|].
  cbn [fill]. rewrite (C85_blockmix ck r b b H eq_refl). cbn [seq flat_map map concat]. change (sc_v b 0) with b. rewrite existsb_app.
  destruct ck; cbn [andb].
  - destruct (existsb topped (sc_blockmix_in b)); [reflexivity|]. cbn [orb]. rewrite (IH _ (blockmix_buffer r b H)). cbn [andb].
    rewrite <- seq_shift, flat_map_map, map_map.
    replace (flat_map (fun i => sc_blockmix_in (sc_v (sc_blockmix b) i)) (seq 0 n)) with (flat_map (fun i => sc_blockmix_in (sc_v b (S i))) (seq 0 n))
      by (apply flat_map_ext; intros i; rewrite v_shift; reflexivity).
    destruct (existsb topped _); [reflexivity|]. rewrite v_shift. do 3 f_equal. f_equal. apply map_ext. intros i. apply v_shift.
  - rewrite (IH _ (blockmix_buffer r b H)). cbn [andb]. rewrite <- seq_shift, map_map, v_shift. do 3 f_equal. f_equal. apply map_ext. intros i. apply v_shift.
Qed.
(** Chunk [j] of the filled array. *)
Lemma chunk_of len (f : nat -> list N) : (forall i, List.length (f i) = len) -> forall n a j, (j < n)%nat ->
  firstn len (skipn (j * len) (concat (map f (seq a n)))) = f (a + j)%nat.
Proof.
  intros L. induction n as [|n IH]; intros a j Hj; [lia|]. cbn [seq map concat]. destruct j as [|j].
  - cbn [Nat.mul skipn]. rewrite Nat.add_0_r. rewrite firstn_app, L, Nat.sub_diag, firstn_O, app_nil_r. apply firstn_all2. rewrite L. reflexivity.
  - replace (S j * len)%nat with (len + j * len)%nat by lia.
    assert (E : forall (x y : list N) p, skipn (List.length x + p) (x ++ y) = skipn p y).
    { clear. intros x y p. induction x as [|h x IH]; [reflexivity|]. exact IH. }
    rewrite <- (L a) at 2. rewrite E. rewrite IH by lia. f_equal. lia.
Qed.
Lemma t_buffer r n b x : buffer r b -> buffer r x -> buffer r (sc_t n b x).
Proof.
  intros H [Lx Bx]. unfold sc_t. destruct (v_buffer r b (N.to_nat (sc_integerify x mod n)) H) as [Lv Bv].
  split; [rewrite sc_xor_len; congruence|]. apply sc_xor_bytes; assumption.
Qed.
Lemma x_buffer r n b i : buffer r b -> buffer r (sc_x n b i).
Proof.
  intros H. unfold sc_x. induction i as [|i IH]; [apply v_buffer; exact H|].
  change (buffer r (sc_blockmix (sc_t n b (Nat.iter i (fun x => sc_blockmix (sc_t n b x)) (sc_v b (N.to_nat n)))))). apply blockmix_buffer. apply t_buffer; assumption.
Qed.
Lemma turns_ok ck r k b m : buffer r b -> k <= 32 -> forall i,
  turns ck (2 ^ k) m (concat (map (sc_v b) (seq 0 (N.to_nat (2 ^ k))))) (sc_x (2 ^ k) b i)
  = if (ck && existsb topped (flat_map (fun i => sc_blockmix_in (sc_t (2 ^ k) b (sc_x (2 ^ k) b i))) (seq i m)))%bool then Panic
    else Ok (sc_x (2 ^ k) b (i + m)).
Proof.
  intros H K. set (n := 2 ^ k). assert (Z : n <> 0) by (apply N.pow_nonzero; discriminate).
  induction m as [|m IH]; intros i; [cbn [turns seq flat_map existsb]; rewrite andb_false_r, Nat.add_0_r; reflexivity|].
  cbn [turns seq flat_map]. pose proof (x_buffer r n b i H) as X. assert (J := integerify_ok r k _ X K). fold n in J. rewrite J. clear J.
  rewrite (chunk_of (List.length (sc_x n b i)) (sc_v b)).
  2:{ intros j. rewrite (proj1 (v_buffer r b j H)), (proj1 X). reflexivity. }
  2:{ pose proof (N.mod_lt (sc_integerify (sc_x n b i)) n Z). lia. }
  cbn [Nat.add]. fold (sc_xor (sc_x n b i) (sc_v b (N.to_nat (sc_integerify (sc_x n b i) mod n)))). fold (sc_t n b (sc_x n b i)).
  pose proof (t_buffer r n b _ H X) as T. rewrite (C85_blockmix ck r _ _ T) by (rewrite (proj1 X), (proj1 T); reflexivity).
  rewrite existsb_app. change (sc_blockmix (sc_t n b (sc_x n b i))) with (sc_x n b (S i)).
  replace (i + S m)%nat with (S i + m)%nat by lia.
  destruct ck; cbn [andb].
  - destruct (existsb topped (sc_blockmix_in (sc_t n b (sc_x n b i)))); [reflexivity|]. cbn [orb]. apply (IH (S i)).
  - apply (IH (S i)).
Qed.

(** scryptROMix, for the cost parameters of the RFC (powers of two) up to 2^32. *)
Theorem C85_romix ck r k b : buffer r b -> k <= 32 ->
  scrypt_ro_mix ck (2 ^ k) b = if (ck && existsb topped (sc_romix_in (2 ^ k) b))%bool then Panic else Ok (sc_romix (2 ^ k) b).
Proof.
  intros H K. unfold scrypt_ro_mix. rewrite (fill_ok ck r) by exact H. unfold sc_romix_in. rewrite existsb_app.
  destruct ck; cbn [andb].
  - destruct (existsb topped (flat_map (fun i => sc_blockmix_in (sc_v b i)) (seq 0 (N.to_nat (2 ^ k))))); [reflexivity|]. cbn [orb].
    apply (turns_ok true r k b _ H K 0).
  - apply (turns_ok false r k b _ H K 0).
Qed.
Print Assumptions C85_romix.
(** Without overflow checks: the function of the RFC, always. *)
Theorem C85_release r k b : buffer r b -> k <= 32 -> scrypt_ro_mix false (2 ^ k) b = Ok (sc_romix (2 ^ k) b).
Proof. intros H K. rewrite (C85_romix false r k b H K). reflexivity. Qed.
Print Assumptions C85_release.

(** Inputs on which a build with overflow checks panics, for every block-size and cost parameter. *)
Definition topping (r : nat) : list N := repeat 0 32 ++ repeat 255 8 ++ repeat 0 24 ++ repeat 0 (64 + 128 * r).
Theorem C85_panics r k : k <= 32 -> buffer r (topping r) /\ scrypt_ro_mix true (2 ^ k) (topping r) = Panic.
Proof.
  intros K.
  assert (H : buffer r (topping r)).
  { unfold topping. split; [rewrite !app_length, !repeat_length; lia|]. unfold bytes. rewrite !Forall_app.
    repeat split; apply Forall_forall; intros x Hx; apply repeat_spec in Hx; subst x; reflexivity. }
  split; [exact H|]. rewrite (C85_romix true r k _ H K). cbn [andb].
  assert (P : exists n, N.to_nat (2 ^ k) = S n).
  { pose proof (N.pow_nonzero 2 k ltac:(discriminate)). exists (pred (N.to_nat (2 ^ k))). lia. }
  destruct P as [n P]. unfold sc_romix_in. rewrite P. cbn [seq flat_map]. change (sc_v (topping r) 0) with (topping r).
  destruct (blockmix_parts r _ H) as (_ & _ & E & _).
  assert (Z : skipn (List.length (topping r) - 64) (topping r) = repeat 0 64).
  { rewrite (proj1 H). unfold topping. rewrite !app_assoc, repeat_app. set (a := _ ++ repeat 0 24).
    replace (repeat 0 64 ++ repeat 0 (128 * r)) with (repeat 0 (128 * r) ++ repeat 0 64) by (rewrite <- !repeat_app; f_equal; lia).
    rewrite app_assoc. replace (128 * S r - 64)%nat with (List.length (a ++ repeat 0 (128 * r))) by (unfold a; rewrite !app_length, !repeat_length; lia).
    rewrite skipn_app, skipn_all, Nat.sub_diag. reflexivity. }
  rewrite Z in E. unfold sc_blockmix_in at 1. rewrite E.
  assert (F : exists bs, sc_split (topping r) = (repeat 0 32 ++ repeat 255 8 ++ repeat 0 24) :: bs).
  { unfold sc_split. replace (List.length (topping r) / 64)%nat with (S (S (2 * r))) by (rewrite (proj1 H); lia).
    cbn [seq map]. eexists. f_equal. }
  destruct F as [bs ->]. cbn [sc_chain_in]. cbv zeta. rewrite <- !app_assoc, !existsb_app. cbn [existsb]. 
  assert (T : topped (sc_xor (repeat 0 64) (repeat 0 32 ++ repeat 255 8 ++ repeat 0 24)) = true) by reflexivity.
  rewrite T. reflexivity.
Qed.
Print Assumptions C85_panics.

(** The vectors of RFC 7914: sections 8 (core), 9 (block mix, r = 1) and 10 (N = 16, r = 1). *)
Definition rfc7914_in : list N := hex "f7ce0b653d2d72a4108cf5abe912ffdd777616dbbb27a70e8204f3ae2d0f6fad89f68f4811d1e87bcc3bd7400a9ffd29094f0184639574f39ae5a1315217bcd7894991447213bb226c25b54da86370fbcd984380374666bb8ffcb5bf40c254b067d27c51ce4ad5fed829c90b505a571b7f4d1cad6a523cda770e67bceaaf7e89".
Example C85_satisfiable : buffer 0 rfc7914_in
  /\ mix_turn true 128 0 (hex "7e879a214f3ec9867ca940e641718f26baee555b8c61c1b50df846116dcd3b1dee24f319df9b3d8514121e4b5ac5aa3276021d2909c74829edebc68db8b8c25e") (repeat 0 64) (repeat 0 128)
     = Ok (hex "a41f859c6608cc993b81cacb020cef05044b2181a2fd337dfd7b1c6396682f29b4393168e3c9e6bcfe6bc5b7a06d96bae424cc102c91745c24ad673dc7618f81", hex "a41f859c6608cc993b81cacb020cef05044b2181a2fd337dfd7b1c6396682f29b4393168e3c9e6bcfe6bc5b7a06d96bae424cc102c91745c24ad673dc7618f81" ++ repeat 0 64)
  /\ scrypt_block_mix true rfc7914_in (repeat 0 128) = Ok (hex "a41f859c6608cc993b81cacb020cef05044b2181a2fd337dfd7b1c6396682f29b4393168e3c9e6bcfe6bc5b7a06d96bae424cc102c91745c24ad673dc7618f8120edc975323881a80540f64c162dcd3c21077cfe5f8d5fe2b1a4168f953678b77d3b3d803b60e4ab920996e59b4d53b65d2a225877d5edf5842cb9f14eefe425")
  /\ scrypt_ro_mix true (2 ^ 4) rfc7914_in = Ok (hex "79ccc193629debca047f0b70604bf6b62ce3dd4a9626e355fafc6198e6ea2b46d58413673b99b029d665c357601fb426a0b2f4bba200ee9f0a43d19b571a9c71ef1142e65d5a266fddca832ce59faa7cac0b9cf1be2bffca300d01ee387619c4ae12fd4438f203a0e4e1c47ec314861f4e9087cb33396a6873e8f9d2539a4b8e")
  /\ existsb topped (sc_blockmix_in rfc7914_in) = false.
Proof.
  split; [apply (octets_check 128); vm_compute; reflexivity|]. repeat (split; [vm_compute; reflexivity|]). vm_compute. reflexivity.
Qed.
