(** Hexadecimal literals for test vectors. *)
From Coq Require Import NArith List String Ascii.
Import ListNotations.
Open Scope N_scope.

Definition hexdigit (c : ascii) : N :=
  let n := N_of_ascii c in
  if n <? 58 then n - 48 else if n <? 91 then n - 55 else n - 87.
Fixpoint hex (s : string) : list N :=
  match s with
  | String a (String b t) => 16 * hexdigit a + hexdigit b :: hex t
  | _ => []
  end.
