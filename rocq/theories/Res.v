(** Computations that may panic. *)
From Verif Require Import Word.
From Coq Require Import ZArith Lia ZifyNat ZifyN.

(** Result of a Rust computation: a value, or a panic (unwinding/abort). *)
Inductive Res (A : Type) : Type :=
| Ok (a : A)
| Panic.
Arguments Ok {A} a.
Arguments Panic {A}.

Definition bind {A B} (m : Res A) (f : A -> Res B) : Res B :=
  match m with Ok a => f a | Panic => Panic end.
Notation "'do' x <- m ; f" := (bind m (fun x => f)) (at level 200, x pattern, m at level 100, f at level 200).

(** [assert!]/[assert_eq!]/[debug-independent] checks. *)
Definition assert_ (b : bool) : Res unit := if b then Ok tt else Panic.

(** Rust [a + b] on an unsigned type of modulus [m]; [ck] is [overflow-checks]. *)
Definition add_ck (ck : bool) (m a b : N) : Res N :=
  if a + b <? m then Ok (a + b) else if ck then Panic else Ok ((a + b) mod m).
(** Rust [a - b] on an unsigned type of modulus [m]. *)
Definition sub_ck (ck : bool) (m a b : N) : Res N :=
  if b <=? a then Ok (a - b) else if ck then Panic else Ok (m + a - b).
(** Rust [a * b] on an unsigned type of modulus [m]. *)
Definition mul_ck (ck : bool) (m a b : N) : Res N :=
  if a * b <? m then Ok (a * b) else if ck then Panic else Ok ((a * b) mod m).
(** Bounds-checked [a[i]]. *)
Definition idx (l : list N) (i : N) : Res N :=
  match nth_error l (N.to_nat i) with Some v => Ok v | None => Panic end.
(** Bounds-checked [a[i] = v]. *)
Definition set_idx (l : list N) (i v : N) : Res (list N) :=
  if i <? N.of_nat (length l) then Ok (upd l (N.to_nat i) v) else Panic.

Lemma bind_Ok {A B} (a : A) (f : A -> Res B) : bind (Ok a) f = f a.
Proof. reflexivity. Qed.
Lemma bind_assoc {A B C} (m : Res A) (f : A -> Res B) (g : B -> Res C) :
  bind (bind m f) g = bind m (fun x => bind (f x) g).
Proof. destruct m; reflexivity. Qed.
Lemma bind_inv {A B} (m : Res A) (f : A -> Res B) b : bind m f = Ok b -> exists a, m = Ok a /\ f a = Ok b.
Proof. destruct m as [a|]; cbn; [eauto|discriminate]. Qed.

(** [for j in l { s = f(j, s) }]. *)
Fixpoint for_ {A S} (l : list A) (f : A -> S -> Res S) (s : S) : Res S :=
  match l with
  | [] => Ok s
  | j :: l' => bind (f j s) (for_ l' f)
  end.
Lemma for_app {A S} (l1 l2 : list A) (f : A -> S -> Res S) s :
  for_ (l1 ++ l2) f s = bind (for_ l1 f s) (for_ l2 f).
Proof.
  revert s; induction l1 as [|j l1 IH]; intros s; [reflexivity|]. cbn [for_ app].
  destruct (f j s) as [s'|]; [apply IH|reflexivity].
Qed.
Lemma add_ck_ok ck m a b : a + b < m -> add_ck ck m a b = Ok (a + b).
Proof. intros H. unfold add_ck. apply N.ltb_lt in H. rewrite H. reflexivity. Qed.
Lemma sub_ck_ok ck m a b : b <= a -> sub_ck ck m a b = Ok (a - b).
Proof. intros H. unfold sub_ck. apply N.leb_le in H. rewrite H. reflexivity. Qed.
Lemma mul_ck_ok ck m a b : a * b < m -> mul_ck ck m a b = Ok (a * b).
Proof. intros H. unfold mul_ck. apply N.ltb_lt in H. rewrite H. reflexivity. Qed.
Lemma idx_ok l i : i < N.of_nat (length l) -> idx l i = Ok (nth (N.to_nat i) l 0).
Proof.
  intros H. unfold idx. destruct (nth_error l (N.to_nat i)) as [v|] eqn:E.
  - symmetry. f_equal. apply nth_error_nth, E.
  - apply nth_error_None in E. lia.
Qed.
Lemma set_idx_ok l i v : i < N.of_nat (length l) -> set_idx l i v = Ok (upd l (N.to_nat i) v).
Proof. intros H. unfold set_idx. apply N.ltb_lt in H. rewrite H. reflexivity. Qed.
