(** Rules and tactics for running the parsed programs on symbolic data. *)
From Coq Require Import String.
From Coq Require Import Lia.
From Verif Require Export RustPrograms.
Local Open Scope string_scope.
Local Open Scope N_scope.
Local Open Scope list_scope.

Lemma run_fn_S : forall g prog d k vs f, find_fn prog k = Some f -> run_fn g prog (S d) k vs = run_body g prog (run_fn g prog d) f vs.
Proof. intros g prog d k vs f H. cbn [run_fn]. rewrite H. reflexivity. Qed.
Lemma eval_blk : forall g p cf o ss tail r,
  eval g p cf o (EBlk ss tail) r =
  (let! r1 := execs g p cf o ss r in
   match tail with Some e => let! (v, r2) := eval g p cf o e r1 in XOk (v, pop r r2) | None => XOk (VUnit, pop r r1) end).
Proof. reflexivity. Qed.
Lemma execs_nil : forall g p cf o r, execs g p cf o [] r = XOk r.
Proof. reflexivity. Qed.
Lemma execs_cons : forall g p cf o s l r, execs g p cf o (s :: l) r = (let! r := exec g p cf o s r in execs g p cf o l r).
Proof. reflexivity. Qed.
Lemma exec_expr : forall g p cf o e r, exec g p cf o (SExpr e) r = (let! (_, r) := eval g p cf o e r in XOk r).
Proof. reflexivity. Qed.
Definition for_body g p cf o x body : val -> env -> X env :=
  fun v r => let! r1 := bind_pat x v r in let! (_, r2) := eval g p cf o body r1 in XOk (pop r r2).
Lemma exec_let : forall g p cf o x t e r,
  exec g p cf o (SLet x t e) r = (let! (v, r) := eval g p cf o e r in bind_pat x (match t with Some t => coerce g t v | None => v end) r).
Proof. reflexivity. Qed.
Lemma eval_bin : forall g p cf o op a b r, (op =? "&&")%string = false -> (op =? "||")%string = false ->
  eval g p cf o (EBin op a b) r =
  (let! (v, r) := eval g p cf o a r in let! v := deref r v in
   let! (w, r) := eval g p cf o b r in let! w := deref r w in let! u := bin g op v w in XOk (u, r)).
Proof. intros g p cf o op a b r H1 H2. cbn [eval]. rewrite H1, H2. reflexivity. Qed.
Lemma eval_asn : forall g p cf o op a b r,
  eval g p cf o (EAsn op a b) r =
  (let! (w, r) := eval g p cf o b r in let! w := deref r w in
   let! (x, q, r) := place g p cf o a r in
   let! w := if (op =? "")%string then XOk w else let! v := rd r x q in bin g op v w in
   let! r := wr r x q w in XOk (VUnit, r)).
Proof. reflexivity. Qed.
Lemma eval_meth1 : forall g p cf o e0 m op x y r, existsb (String.eqb m) mut_meths = false ->
  eval g p cf o (EMeth e0 m [EBin op x y]) r =
  (let! (v, r) := eval g p cf o e0 r in
   let! v0 := deref r v in
   match v0 with
   | VStruct s _ =>
       let! (vs, r) := (let! (v, r) := eval g p cf o (EBin op x y) r in let! (vs, r) := XOk ([], r) in XOk (v :: vs, r)) in
       let! self := if is_place r e0 then let! (x, q, _) := place g p cf o e0 r in XOk (VRef x q) else XOk v0 in
       user_call p cf (s ++ "::" ++ m) (self :: reborrow r [EBin op x y] vs) r
   | _ =>
       let! (vs, r) := (let! (v, r) := eval g p cf o (EBin op x y) r in let! (vs, r) := XOk ([], r) in XOk (v :: vs, r)) in
       let! vs := xmap (if (m =? "zip")%string then zipped r else passed r) vs in let! u := value_meth g m v0 vs in XOk (u, r)
   end).
Proof. intros g p cf o e0 m op x y r H. cbn [eval]. rewrite H. reflexivity. Qed.
Lemma eval_for : forall g p cf o x e body r,
  eval g p cf o (EFor x e body) r =
  (let! (v, r) := eval g p cf o e r in let! v := deref r v in let! l := items v in let! r := loop (for_body g p cf o x body) l r in XOk (VUnit, r)).
Proof. reflexivity. Qed.
Lemma eval_if : forall g p cf o c t f r,
  eval g p cf o (EIf c t f) r =
  (let! (v, r) := eval g p cf o c r in
   match v with VBool true => eval g p cf o t r | VBool false => match f with Some f => eval g p cf o f r | None => XOk (VUnit, r) end | _ => XStuck end).
Proof. reflexivity. Qed.
(** [flat] over sequences, and a loop whose body maps states of one form to states of this form. *)
Lemma flat_assoc : forall A B C (m : X A) (f : A -> X B) (h : B -> X C), flat (xbind (xbind m f) h) = flat (xbind m (fun a => xbind (f a) h)).
Proof.
  intros A B C m f h. induction m as [a| | |v r|m k IH|b k IH]; cbn [xbind flat]; [reflexivity..| |].
  - destruct m as [n|]; [apply IH|reflexivity].
  - destruct b; [apply IH|reflexivity].
Qed.
Lemma flat_step : forall A B (m : X A) (f : A -> X B) a, flat m = XOk a -> flat (xbind m f) = flat (f a).
Proof.
  intros A B m f a. induction m as [x| | |v r|m k IH|b k IH]; cbn [xbind flat]; intros H; try discriminate H.
  - injection H as ->. reflexivity.
  - destruct m as [n|]; [apply IH, H|discriminate H].
  - destruct b; [apply IH, H|discriminate H].
Qed.
Lemma flat_stop : forall A B (m : X A) (f : A -> X B), flat m = XPanic -> flat (xbind m f) = XPanic.
Proof.
  intros A B m f. induction m as [x| | |v r|m k IH|b k IH]; cbn [xbind flat]; intros H; try discriminate H; [reflexivity|..].
  - destruct m as [n|]; [apply IH, H|reflexivity].
  - destruct b; [apply IH, H|reflexivity].
Qed.
Lemma flat_panic : forall A B (f : A -> X B), flat (xbind XPanic f) = XPanic.
Proof. reflexivity. Qed.
Lemma flat_ok : forall A B (a : A) (f : A -> X B), flat (xbind (XOk a) f) = flat (f a).
Proof. reflexivity. Qed.
Lemma flat_chk : forall A B (m : X A) (f : A -> X B), flat (xbind (XChk true m) f) = flat (xbind m f).
Proof. reflexivity. Qed.
Lemma flat_res : forall A B n (k : N -> X A) (f : A -> X B), flat (xbind (XRes (Ok n) k) f) = flat (xbind (k n) f).
Proof. reflexivity. Qed.
Lemma flat_pan : forall A B (k : N -> X A) (f : A -> X B), flat (xbind (XRes Panic k) f) = XPanic.
Proof. reflexivity. Qed.
Lemma flat_loop : forall A B body (inv : A -> env) (f : val -> A -> A) (ok : A -> Prop) l a (k : env -> X B),
  ok a -> (forall v a, ok a -> In v l -> ok (f v a)) ->
  (forall v a, ok a -> In v l -> flat (body v (inv a)) = XOk (inv (f v a))) ->
  flat (xbind (loop body l (inv a)) k) = flat (k (inv (fold_left (fun a v => f v a) l a))).
Proof.
  intros A B body inv f ok l. induction l as [|v l IH]; intros a k Ha Hf H; [reflexivity|].
  cbn [loop fold_left]. rewrite flat_assoc. rewrite (flat_step _ _ _ _ _ (H v a Ha (or_introl eq_refl))).
  apply IH; [apply Hf; [exact Ha|left; reflexivity]|intros w b Hb Hw; apply Hf; [exact Hb|right; exact Hw]|].
  intros w b Hb Hw. apply H; [exact Hb|right; exact Hw].
Qed.
Lemma flat_loop_cons : forall B body v l r (k : env -> X B),
  flat (xbind (loop body (v :: l) r) k) = flat (xbind (body v r) (fun r => xbind (loop body l r) k)).
Proof. intros. cbn [loop]. apply flat_assoc. Qed.
Lemma flat_loop_nil : forall B body r (k : env -> X B), flat (xbind (loop body [] r) k) = flat (k r).
Proof. reflexivity. Qed.
(** A loop whose steps may panic. *)
Lemma flat_for : forall A B body (inv : A -> env) (f : nat -> A -> Res A) (ok : A -> Prop) (val : nat -> val) l a (k : env -> X B),
  ok a -> (forall j a a', ok a -> In j l -> f j a = Ok a' -> ok a') ->
  (forall j a, ok a -> In j l -> flat (body (val j) (inv a)) = match f j a with Ok a' => XOk (inv a') | Panic => XPanic end) ->
  flat (xbind (loop body (map val l) (inv a)) k) = match for_ l f a with Ok a' => flat (k (inv a')) | Panic => XPanic end.
Proof.
  intros A B body inv f ok val l. induction l as [|j l IH]; intros a k Ha Hf H; [reflexivity|].
  cbn [map for_]. rewrite flat_loop_cons. pose proof (H j a Ha (or_introl eq_refl)) as Hj. pose proof (Hf j a) as Hk.
  destruct (f j a) as [a'|]; cbn [bind].
  - rewrite (flat_step _ _ _ _ _ Hj). apply IH; [apply Hk; [exact Ha|left; reflexivity|reflexivity]| |].
    + intros i b b' Hb Hi. apply Hf; [exact Hb|right; exact Hi].
    + intros i b Hb Hi. apply H; [exact Hb|right; exact Hi].
  - rewrite flat_stop; [reflexivity|exact Hj].
Qed.
Lemma fold_iter : forall A B (f : A -> A) (l : list B) a, fold_left (fun a _ => f a) l a = iter_n (length l) f a.
Proof. intros A B f l. induction l as [|x l IH]; intros a; [reflexivity|]. cbn. apply IH. Qed.
Lemma numbers_length : forall a b, length (numbers a b) = N.to_nat (b - a).
Proof. intros. unfold numbers. rewrite map_length, seq_length. reflexivity. Qed.
Lemma upd_len : forall A (l : list A) i v, length (upd l i v) = length l.
Proof. intros A l. induction l as [|x l IH]; intros [|i] v; cbn; [reflexivity..|]. rewrite IH. reflexivity. Qed.
Lemma inb_updi : forall i l j v, inb i (updi l j v) = inb i l.
Proof. intros. unfold inb, updi. rewrite upd_len. reflexivity. Qed.
Lemma iter_inv : forall A (P : A -> Prop) f, (forall a, P a -> P (f a)) -> forall n a, P a -> P (iter_n n f a).
Proof. intros A P f H n. induction n as [|n IH]; intros a Ha; [exact Ha|]. cbn. apply IH, H, Ha. Qed.

Lemma le_bytes4 : forall x, to_le 4 x = [le_byte x 0; le_byte x 1; le_byte x 2; le_byte x 3].
Proof.
  intros x. unfold le_byte, w_trunc, w_shr. cbn [to_le N.mul]. rewrite !N.shiftr_div_pow2, !N.div_div by lia. cbn [N.pow]. rewrite N.div_1_r. reflexivity.
Qed.
(** Shifts that lose no bit. *)
Lemma shl_small : forall m a k n, a < n -> n * 2 ^ k <= m -> w_shl m a k = N.shiftl a k.
Proof.
  intros m a k n Ha Hm. unfold w_shl. apply N.mod_small. rewrite N.shiftl_mul_pow2.
  apply N.lt_le_trans with (n * 2 ^ k); [|exact Hm]. apply N.mul_lt_mono_pos_r; [|exact Ha]. apply N.neq_0_lt_0, N.pow_nonzero. lia.
Qed.

(** Pointer widths of Rust's targets, in bits; an [Option<usize>]. *)
Definition pointer_widths : list N := [16; 32; 64].
Definition opt_val (o : option N) : val := match o with Some n => VCon "Some" [VInt Usz n] | None => VCon "None" [] end.
Lemma sub_max : forall ck m x, x < m -> w_sub ck m (m - 1) x = Ok (m - 1 - x).
Proof. intros ck m x H. unfold w_sub. apply sub_ck_ok. lia. Qed.

(** The normal form of a term: everything the interpreter does is carried out, words and
    calls stay symbolic.  Files that use this put the names of their model functions here. *)
Ltac rs_norm t :=
  eval cbv -[run_fn loop for_body
             add32 sub32 add64 xor32 rotl32 rotr32 w_add w_sub w_mul w_and w_or w_xor w_shl w_shr w_div w_mod w_trunc w_fits le_byte from_le N.pow] in t.
(** The same, with loops over known lists carried out. *)
Ltac rs_norm_all t :=
  eval cbv -[run_fn
             add32 sub32 add64 xor32 rotl32 rotr32 w_add w_sub w_mul w_and w_or w_xor w_shl w_shr w_div w_mod w_trunc w_fits le_byte from_le N.pow] in t.
Ltac rs_replace t u :=
  tryif constr_eq t u then idtac else
  let E := fresh "E" in let T := type of t in
  assert (E : t = u) by exact_no_check (@eq_refl T u); rewrite E; clear E.
Ltac rs_eval t := let u := rs_norm t in rs_replace t u.
Ltac rs_eval_all t := let u := rs_norm_all t in rs_replace t u.
Ltac rs_lhs := match goal with |- ?a = _ => rs_eval a end.
Ltac rs_lhs_all := match goal with |- ?a = _ => rs_eval_all a end.
(** Enters a function: the goal's call becomes the run of its body.  [rs_open] also names
    what it calls [cf]. *)
Ltac rs_enter :=
  match goal with
  | |- context [run_fn ?g ?p (S ?d) ?k ?vs] =>
      let r := eval vm_compute in (find_fn p k) in
      match r with
      | Some ?f => rewrite (run_fn_S g p d k vs f); [|vm_cast_no_check (eq_refl r)]
      end
  end.
Ltac rs_body :=
  unfold run_body, bind_args; cbn [f_owner f_body f_self f_params f_ret combine map fst snd coerce ty_ity length];
  rewrite eval_blk;
  match goal with |- context [execs _ _ _ _ _ ?r] => rs_eval r end.
Ltac rs_flow := repeat (first [rewrite flat_ok | rewrite flat_chk | rewrite flat_res | rewrite flat_assoc]; cbv beta match).
(** The next statement of a block. *)
Ltac rs_stmt :=
  rewrite execs_cons; rewrite ?flat_assoc;
  match goal with |- context [exec ?g ?p ?c ?o ?s ?r] => rs_eval (exec g p c o s r) end;
  rs_flow.
Ltac rs_stmt_all :=
  rewrite execs_cons; rewrite ?flat_assoc;
  match goal with |- context [exec ?g ?p ?c ?o ?s ?r] => rs_eval_all (exec g p c o s r) end;
  rs_flow.
(** Goes on after a call's result was put in. *)
Ltac rs_again :=
  rs_flow;
  repeat match goal with
         | |- context [flat (xbind (execs _ _ _ _ _ _) _)] => fail 1
         | |- context [flat (xbind ?m _)] => progress (rs_eval m); rs_flow
         end.
Ltac rs_cbn t := let u := eval cbn [deref items] in t in rs_replace t u.
Ltac rs_items :=
  match goal with |- context [deref ?r ?v] => rs_cbn (deref r v) end; rs_flow;
  match goal with |- context [items ?v] => rs_cbn (items v) end; rs_flow.
(** Evaluates the expression that is next. *)
Ltac rs_expr := match goal with |- context [flat (xbind (eval ?g ?p ?c ?o ?e ?r) _)] => rs_eval (eval g p c o e r) end; rs_flow.
(** A [for] over a range comes next: its bounds. *)
Ltac rs_for :=
  rewrite execs_cons, exec_expr, eval_for; rewrite ?flat_assoc;
  match goal with |- context [eval ?g ?p ?c ?o (ERng ?a ?b) ?r] => rs_eval (eval g p c o (ERng a b) r) end;
  rs_flow; rs_items.
(** A list of known length becomes its elements. *)
Ltac destr_list l H :=
  repeat (let x := fresh "x" in destruct l as [|x l]; [discriminate H|]; apply Nat.succ_inj in H); destruct l; [clear H|discriminate H].
