(** The text of [rc4/src/lib.rs:51-55, 83-101], run: [new], and the calls that give keystream. *)
From Coq Require Import String Lia.
From Verif Require Import WordLemmas RustLemmas RustMeth RustRc4 RustRc4b Rc4Proofs.
Local Open Scope string_scope.
Local Open Scope N_scope.
Local Open Scope list_scope.
Ltac rs_norm t ::=
  eval cbv -[run_fn loop for_body inb geti updi in_range part splice numbers N.of_nat N.to_nat w_ltb w_sum w_diff w_prod
             add32 sub32 add64 xor32 rotl32 rotr32 w_add w_sub w_mul w_and w_or w_xor w_shl w_shr w_div w_mod w_trunc w_fits le_byte from_le N.pow] in t.
Lemma src_write_body : forall ck usz cf s0 s1 o n b0, inb n b0 = true ->
  cf "Rc4::prga" [rc4_val s0] = XOk (VInt U8 o, [rc4_val s1]) ->
  flat (let r := [("self", rc4_val s0); ("buf", VArr U8 b0)] in
        let! r1 := bind_pat (clo_pat [PVar "b"]) (VRef "buf" [PI n]) r in
        let! (_, r2) := eval (rc4_g ck usz) rc4_prog cf "Rc4" (EAsn "" (EDeref (EPath ["b"] [])) (EMeth (EPath ["self"] []) "prga" [])) r1 in
        XOk (pop r r2)) =
  XOk [("self", rc4_val s1); ("buf", VArr U8 (updi b0 n o))].
Proof.
  intros ck usz cf [st0 i0 j0] [st1 i1 j1] o n b0 Hn HP0. unfold rc4_val in *. cbn [k_state k_i k_j] in *. cbv zeta.
  match goal with |- context [bind_pat ?a ?b ?c] => rs_eval (bind_pat a b c) end. rs_flow.
  rewrite eval_asn. rs_again. rewrite HP0. rs_again. rewrite ?Hn. rs_again. rs_lhs. reflexivity.
Qed.
Definition inout (bi bo : list N) : val := VStruct "InOutBuf" [("0", VArr U8 bi); ("1", VArr U8 bo)].
Lemma src_apply_body : forall ck usz cf s0 s1 o n bi bo, inb n bi = true -> inb n bo = true ->
  cf "Rc4::prga" [rc4_val s0] = XOk (VInt U8 o, [rc4_val s1]) ->
  flat (let r := [("self", rc4_val s0); ("buf", inout bi bo)] in
        let! r1 := bind_pat (clo_pat [PVar "b"]) (VStruct "InOut" [("0", VRef "buf" [PF "0"; PI n]); ("1", VRef "buf" [PF "1"; PI n])]) r in
        let! (_, r2) := eval (rc4_g ck usz) rc4_prog cf "Rc4"
                        (EBlk
                           [SLet (PVar "ks") None
                              (EMeth (EPath ["self"] []) "prga" []);
                            SExpr
                              (EAsn ""
                                 (EDeref
                                    (EMeth (EPath ["b"] []) "get_out" []))
                                 (EBin "^" (EPath ["ks"] [])
                                    (EDeref
                                       (EMeth (EPath ["b"] []) "get_in" []))))]
                           None) r1 in
        XOk (pop r r2)) =
  XOk [("self", rc4_val s1); ("buf", inout bi (updi bo n (w_xor o (geti bi n))))].
Proof.
  intros ck usz cf [st0 i0 j0] [st1 i1 j1] o n bi bo Hi Ho HP0. unfold rc4_val, inout in *. cbn [k_state k_i k_j] in *. cbv zeta.
  match goal with |- context [bind_pat ?a ?b ?c] => rs_eval (bind_pat a b c) end. rs_flow.
  rewrite eval_blk. rs_flow. rewrite execs_cons, exec_let. rs_again. rewrite HP0. rs_again.
  rs_stmt. rewrite Hi, Ho. rs_flow. rewrite ?execs_nil. rs_lhs. reflexivity.
Qed.
Ltac rs_norm t ::=
  eval cbv -[run_fn loop for_body inb geti updi in_range part splice numbers N.of_nat N.to_nat w_ltb w_sum w_diff w_prod List.map List.length List.nth Nat.modulo List.seq
             add32 sub32 add64 xor32 rotl32 rotr32 w_add w_sub w_mul w_and w_or w_xor w_shl w_shr w_div w_mod w_trunc w_fits le_byte from_le N.pow] in t.
Definition write_step (j : nat) (q : rc4 * list N) : Res (rc4 * list N) :=
  do (o, s) <- prga (fst q); Ok (s, updi (snd q) (N.of_nat j) o).
Lemma numbers_0 n : numbers 0 (N.of_nat n) = map N.of_nat (seq 0 n).
Proof. unfold numbers. rewrite N.sub_0_r, Nat2N.id. reflexivity. Qed.
Lemma inb_lt i l : (N.to_nat i < length l)%nat -> inb i l = true.
Proof. intros H. unfold inb. apply N.ltb_lt. lia. Qed.
Lemma perm_bytes l : perm l -> bytes l.
Proof. exact (perm_lt l). Qed.
Lemma src_rc4_write : forall ck usz d s buf, In usz pointer_widths -> kwf s ->
  run_fn (rc4_g ck usz) rc4_prog (S (S (S d))) "Rc4::unchecked_write_keystream" [rc4_val s; VArr U8 buf] =
  match for_ (seq 0 (length buf)) write_step (s, buf) with Ok (s', o) => XOk (VUnit, [rc4_val s'; VArr U8 o]) | Panic => XPanic end.
Proof.
  intros ck usz d s buf U W. rs_enter. pose proof (fun s => src_prga ck usz d s U) as HP. revert HP.
  generalize (run_fn (rc4_g ck usz) rc4_prog (S (S d))) as cf. intros cf HP.
  unfold rc4_val at 1. rs_body. 
  rewrite execs_cons, exec_expr, eval_for_each. rs_flow. rs_expr. 
  match goal with |- context [items (VIter ?l)] => change (items (VIter l)) with (@XOk (list val) l) end. rs_flow.
  rewrite numbers_0, map_map.
  match goal with |- context [loop _ _ ?r] =>
    change r with ((fun q : rc4 * list N => [("self", rc4_val (fst q)); ("buf", VArr U8 (snd q))]) (s, buf)) end.
  rewrite (flat_for _ _ _ _ write_step (fun q => kwf (fst q) /\ length (snd q) = length buf)).
  - destruct (for_ (seq 0 (length buf)) write_step (s, buf)) as [[s' o]|]; [|reflexivity]. cbn [fst snd]. unfold rc4_val. rs_flow. rewrite execs_nil. rs_lhs. reflexivity.
  - split; [exact W|reflexivity].
  - intros j [s0 b0] [s1 b1] [H L] _. cbn [fst snd] in *. unfold write_step. cbn [fst snd]. rewrite prga_ok by exact H. cbn [bind].
    intros E. injection E as <- <-. split; [apply prga_wf, H|]. unfold updi. rewrite upd_len. exact L.
  - intros j [s0 b0] [H L] I. cbn [fst snd] in *. apply in_seq in I. 
    assert (Ib : inb (N.of_nat j) b0 = true) by (apply inb_lt; lia).
    assert (HP0 := HP s0 (perm_length _ (proj1 H)) (perm_bytes _ (proj1 H)) (proj2 (proj2 H))).
    unfold write_step. cbn [fst snd]. rewrite prga_ok in * by exact H. cbn [bind fst snd]. revert HP0.
    generalize (prga_state s0). intros s1 HP0. revert Ib HP0. generalize (N.of_nat j). intros n Hn HP0.
    unfold for_body. rewrite src_write_body with (o := prga_out s1) (s1 := s1); [|exact Hn|exact HP0]. reflexivity.
Qed.

Definition apply_step (bi : list N) (j : nat) (q : rc4 * list N) : Res (rc4 * list N) :=
  do (o, s) <- prga (fst q); Ok (s, updi (snd q) (N.of_nat j) (w_xor o (geti bi (N.of_nat j)))).
Lemma src_rc4_apply_ : forall ck usz d s bi bo, In usz pointer_widths -> kwf s -> length bi = length bo ->
  run_fn (rc4_g ck usz) rc4_prog (S (S (S d))) "Rc4::unchecked_apply_keystream_inout" [rc4_val s; inout bi bo] =
  match for_ (seq 0 (length bi)) (apply_step bi) (s, bo) with Ok (s', o) => XOk (VUnit, [rc4_val s'; inout bi o]) | Panic => XPanic end.
Proof.
  intros ck usz d s bi bo U W Lb. rs_enter. pose proof (fun s => src_prga ck usz d s U) as HP. revert HP.
  generalize (run_fn (rc4_g ck usz) rc4_prog (S (S d))) as cf. intros cf HP.
  unfold rc4_val at 1. unfold inout at 1. rs_body.
  rewrite execs_cons, exec_expr, eval_for_each. rs_flow. rs_expr.
  match goal with |- context [items (VIter ?l)] => change (items (VIter l)) with (@XOk (list val) l) end. rs_flow.
  rewrite numbers_0, map_map.
  match goal with |- context [loop _ _ ?r] =>
    change r with ((fun q : rc4 * list N => [("self", rc4_val (fst q)); ("buf", inout bi (snd q))]) (s, bo)) end.
  rewrite (flat_for _ _ _ _ (apply_step bi) (fun q => kwf (fst q) /\ length (snd q) = length bo)).
  - destruct (for_ (seq 0 (length bi)) (apply_step bi) (s, bo)) as [[s' o]|]; [|reflexivity]. cbn [fst snd]. unfold rc4_val. rs_flow. rewrite execs_nil. rs_lhs. reflexivity.
  - split; [exact W|reflexivity].
  - intros j [s0 b0] [s1 b1] [H L] _. cbn [fst snd] in *. unfold apply_step. cbn [fst snd]. rewrite prga_ok by exact H. cbn [bind].
    intros E. injection E as <- <-. split; [apply prga_wf, H|]. unfold updi. rewrite upd_len. exact L.
  - intros j [s0 b0] [H L] I. cbn [fst snd] in *. apply in_seq in I.
    assert (Ii : inb (N.of_nat j) bi = true) by (apply inb_lt; lia).
    assert (Ib : inb (N.of_nat j) b0 = true) by (apply inb_lt; lia).
    assert (HP0 := HP s0 (perm_length _ (proj1 H)) (perm_bytes _ (proj1 H)) (proj2 (proj2 H))).
    unfold apply_step. cbn [fst snd]. rewrite prga_ok in * by exact H. cbn [bind fst snd]. revert HP0.
    generalize (prga_state s0). intros s1 HP0. revert Ii Ib HP0. generalize (N.of_nat j). intros n Hi Hn HP0.
    unfold for_body. rewrite src_apply_body with (o := prga_out s1) (s1 := s1); [|exact Hi|exact Hn|exact HP0]. reflexivity.
Qed.
(** [lib.rs:54-56] *)
Lemma src_rc4_new32 : forall ck usz d key, In usz pointer_widths ->
  run_fn (rc4_g ck usz) rc4_prog (S (S d)) "Rc4::new" [VArr U8 key] =
  match rc4_new key with Ok s => XOk (rc4_val s, [VArr U8 key]) | Panic => XPanic end.
Proof.
  intros ck usz d key U. rs_enter. pose proof (src_rc4_new ck usz d key U) as HP. revert HP.
  generalize (run_fn (rc4_g ck usz) rc4_prog (S d)) as cf. intros cf HP.
  rs_body. rs_flow. rewrite execs_nil. rs_flow. rs_again. rewrite HP. unfold rc4_new. destruct (new_from_slice key) as [[s|]|]; cbn [bind]; rs_lhs; reflexivity.
Qed.
Lemma src_rc4_check : forall ck usz d s n,
  run_fn (rc4_g ck usz) rc4_prog (S d) "Rc4::check_remaining" [rc4_val s; VInt Usz (N.of_nat n)] =
  XOk (if rc4_check_remaining s n then VCon "Ok" [VUnit] else VCon "Err" [VUnit], [rc4_val s; VInt Usz (N.of_nat n)]).
Proof.
  intros. rs_enter. rs_body. rs_lhs. reflexivity.
Qed.
Lemma updi_app (pre : list N) x rest y : updi (pre ++ x :: rest) (N.of_nat (length pre)) y = (pre ++ [y]) ++ rest.
Proof. unfold updi. rewrite Nat2N.id. induction pre as [|a pre IH]; [reflexivity|]. cbn. f_equal. exact IH. Qed.
Lemma geti_app (pre : list N) x rest : geti (pre ++ x :: rest) (N.of_nat (length pre)) = x.
Proof. unfold geti, get. rewrite Nat2N.id. rewrite app_nth2, Nat.sub_diag by lia. reflexivity. Qed.
Lemma write_loop rest : forall pre s,
  for_ (seq (length pre) (length rest)) write_step (s, pre ++ rest) =
  do (o, s') <- rc4_write s (length rest); Ok (s', pre ++ o).
Proof.
  induction rest as [|x rest IH]; intros pre s; [reflexivity|]. cbn [length seq for_ rc4_write]. unfold write_step at 1. cbn [fst snd].
  destruct (prga s) as [[o s1]|]; [|reflexivity]. cbn [bind]. rewrite updi_app.
  replace (S (length pre)) with (length (pre ++ [o])) by (rewrite app_length; cbn; lia). rewrite IH.
  destruct (rc4_write s1 (length rest)) as [[o2 s2]|]; [|reflexivity]. cbn [bind]. rewrite <- app_assoc. reflexivity.
Qed.
Lemma apply_loop rest : forall restb pre preb s, length preb = length pre -> length restb = length rest ->
  for_ (seq (length pre) (length rest)) (apply_step (pre ++ rest)) (s, preb ++ restb) =
  do (o, s') <- rc4_apply s rest; Ok (s', preb ++ o).
Proof.
  induction rest as [|x rest IH]; intros restb pre preb s Hp Hr; [destruct restb; [reflexivity|discriminate]|].
  destruct restb as [|y restb]; [discriminate|]. cbn [length seq for_ rc4_apply]. unfold apply_step at 1. cbn [fst snd].
  destruct (prga s) as [[o s1]|]; [|reflexivity]. cbn [bind]. rewrite geti_app. replace (updi (preb ++ y :: restb) (N.of_nat (length pre)) (w_xor o x)) with ((preb ++ [w_xor o x]) ++ restb) by (rewrite <- Hp, updi_app; reflexivity).
  replace (S (length pre)) with (length (pre ++ [x])) by (rewrite app_length; cbn; lia).
  replace (pre ++ x :: rest) with ((pre ++ [x]) ++ rest) by (rewrite <- app_assoc; reflexivity).
  rewrite IH; [|rewrite !app_length; cbn; lia|cbn in Hr; lia].
  destruct (rc4_apply s1 rest) as [[o2 s2]|]; [|reflexivity]. cbn [bind]. rewrite <- app_assoc. reflexivity.
Qed.

(** [lib.rs:97-100] *)
Theorem src_rc4_write_keystream : forall ck usz d s buf, In usz pointer_widths -> kwf s ->
  run_fn (rc4_g ck usz) rc4_prog (S (S (S d))) "Rc4::unchecked_write_keystream" [rc4_val s; VArr U8 buf] =
  match rc4_write s (length buf) with Ok (o, s') => XOk (VUnit, [rc4_val s'; VArr U8 o]) | Panic => XPanic end.
Proof.
  intros. rewrite src_rc4_write by assumption. pose proof (write_loop buf [] s) as E. cbn [app length] in E. rewrite E. clear E. destruct (rc4_write s (length buf)) as [[o s']|]; reflexivity.
Qed.
(** [lib.rs:89-95] *)
Theorem src_rc4_apply : forall ck usz d s bi bo, In usz pointer_widths -> kwf s -> length bi = length bo ->
  run_fn (rc4_g ck usz) rc4_prog (S (S (S d))) "Rc4::unchecked_apply_keystream_inout" [rc4_val s; inout bi bo] =
  match rc4_apply s bi with Ok (o, s') => XOk (VUnit, [rc4_val s'; inout bi o]) | Panic => XPanic end.
Proof.
  intros. rewrite src_rc4_apply_ by assumption. pose proof (apply_loop bi bo [] [] s eq_refl ltac:(auto)) as E. cbn [app length] in E. rewrite E. clear E. destruct (rc4_apply s bi) as [[o s']|]; reflexivity.
Qed.
