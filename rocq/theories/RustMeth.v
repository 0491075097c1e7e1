(** Further laws of the evaluator of [RustSem.v]: calls of methods with one argument, [||], [for_each].
    They restate clauses of the evaluator, for proofs that go step by step; nothing of the
    repository is modelled here. *)
From Coq Require Import String Lia.
From Verif Require Import RustLemmas.
Local Open Scope string_scope.
Local Open Scope N_scope.
Local Open Scope list_scope.
(** A call of a method with one argument that is no closure. *)
Lemma eval_meth_if : forall g p cf o e0 m a r, (forall x y, a <> EClo x y) ->
  eval g p cf o (EMeth e0 m [a]) r =
  if existsb (String.eqb m) mut_meths
  then let! (vs, r) := (let! (v, r) := eval g p cf o a r in let! (vs, r) := XOk ([], r) in XOk (v :: vs, r)) in
       let! vs := xmap (passed r) vs in
       let! (x, p, r) := place g p cf o e0 r in let! v := rd r x p in
       let! (res, new) := place_meth m x p v vs in
       match new with
       | None => XOk (res, r)
       | Some w => let! r := wr r x p w in XOk (res, r)
       end
  else (let! (v, r) := eval g p cf o e0 r in
   let! v0 := deref r v in
   match v0 with
   | VStruct s _ =>
       let! (vs, r) := (let! (v, r) := eval g p cf o a r in let! (vs, r) := XOk ([], r) in XOk (v :: vs, r)) in
       let! self := if is_place r e0 then let! (x, q, _) := place g p cf o e0 r in XOk (VRef x q) else XOk v0 in
       user_call p cf (s ++ "::" ++ m) (self :: reborrow r [a] vs) r
   | _ =>
       let! (vs, r) := (let! (v, r) := eval g p cf o a r in let! (vs, r) := XOk ([], r) in XOk (v :: vs, r)) in
       let! vs := xmap (if (m =? "zip")%string then zipped r else passed r) vs in let! u := value_meth g m v0 vs in XOk (u, r)
   end).
Proof.
  intros g p cf o e0 m a r C.
  transitivity (match a with
    | EClo ps body =>
          if (m =? "for_each")%string
          then let! (v, r) := eval g p cf o e0 r in let! l := items v in
               let! r := loop (fun v r => let! r1 := bind_pat (clo_pat ps) v r in let! (_, r2) := eval g p cf o body r1 in XOk (pop r r2)) l r in
               XOk (VUnit, r)
          else XStuck
    | _ =>
  if existsb (String.eqb m) mut_meths
  then let! (vs, r) := (let! (v, r) := eval g p cf o a r in let! (vs, r) := XOk ([], r) in XOk (v :: vs, r)) in
       let! vs := xmap (passed r) vs in
       let! (x, p, r) := place g p cf o e0 r in let! v := rd r x p in
       let! (res, new) := place_meth m x p v vs in
       match new with
       | None => XOk (res, r)
       | Some w => let! r := wr r x p w in XOk (res, r)
       end
  else (let! (v, r) := eval g p cf o e0 r in
   let! v0 := deref r v in
   match v0 with
   | VStruct s _ =>
       let! (vs, r) := (let! (v, r) := eval g p cf o a r in let! (vs, r) := XOk ([], r) in XOk (v :: vs, r)) in
       let! self := if is_place r e0 then let! (x, q, _) := place g p cf o e0 r in XOk (VRef x q) else XOk v0 in
       user_call p cf (s ++ "::" ++ m) (self :: reborrow r [a] vs) r
   | _ =>
       let! (vs, r) := (let! (v, r) := eval g p cf o a r in let! (vs, r) := XOk ([], r) in XOk (v :: vs, r)) in
       let! vs := xmap (if (m =? "zip")%string then zipped r else passed r) vs in let! u := value_meth g m v0 vs in XOk (u, r)
   end)
    end); [reflexivity|].
  destruct a; try reflexivity. exfalso. exact (C _ _ eq_refl).
Qed.
Lemma eval_meth_1 : forall g p cf o e0 m a r, existsb (String.eqb m) mut_meths = false -> (forall x y, a <> EClo x y) ->
  eval g p cf o (EMeth e0 m [a]) r =
  (let! (v, r) := eval g p cf o e0 r in
   let! v0 := deref r v in
   match v0 with
   | VStruct s _ =>
       let! (vs, r) := (let! (v, r) := eval g p cf o a r in let! (vs, r) := XOk ([], r) in XOk (v :: vs, r)) in
       let! self := if is_place r e0 then let! (x, q, _) := place g p cf o e0 r in XOk (VRef x q) else XOk v0 in
       user_call p cf (s ++ "::" ++ m) (self :: reborrow r [a] vs) r
   | _ =>
       let! (vs, r) := (let! (v, r) := eval g p cf o a r in let! (vs, r) := XOk ([], r) in XOk (v :: vs, r)) in
       let! vs := xmap (if (m =? "zip")%string then zipped r else passed r) vs in let! u := value_meth g m v0 vs in XOk (u, r)
   end).
Proof. intros g p cf o e0 m a r H C. rewrite eval_meth_if by exact C. rewrite H. reflexivity. Qed.

Lemma eval_or : forall g p cf o a b r,
  eval g p cf o (EBin "||" a b) r =
  (let! (v, r) := eval g p cf o a r in let! v := deref r v in
   match v with VBool false => eval g p cf o b r | VBool true => XOk (v, r) | _ => XStuck end).
Proof. reflexivity. Qed.
Lemma eval_for_each : forall g p cf o e0 ps body r,
  eval g p cf o (EMeth e0 "for_each" [EClo ps body]) r =
  (let! (v, r) := eval g p cf o e0 r in let! l := items v in let! r := loop (for_body g p cf o (clo_pat ps) body) l r in XOk (VUnit, r)).
Proof. reflexivity. Qed.
Lemma flat_ret : forall A B v r (f : A -> X B), flat (xbind (XRet v r) f) = XRet v r.
Proof. reflexivity. Qed.
