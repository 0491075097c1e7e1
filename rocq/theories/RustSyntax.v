(** A lexer and a parser for the part of Rust in which the portable code of the crates is
    written, so that the text of the repository ([RustText.v]) can be read by Coq itself.

    The grammar follows the Rust reference (chapters "Tokens", "Expressions", "Items",
    operator precedence as in "Expressions").  Not read: patterns other than names,
    references and tuples, [match], [while], lifetimes, visibility and [where] clauses
    (skipped), the contents of attributes (skipped).  Types are kept only as far as the
    semantics ([RustSem.v]) needs them: for literals, conversions and references. *)
From Coq Require Import Arith NArith List Bool String Ascii.
Import ListNotations.
Local Open Scope string_scope.
Local Open Scope list_scope.
Local Open Scope N_scope.

(** ** Tokens *)
Inductive tok :=
| TId (s : string)                      (* identifiers and keywords *)
| TNum (n : N) (suf : string)           (* integer literals, with their suffix *)
| TP (s : string)                       (* punctuation *)
| TStr (s : string).                    (* string literals, without escapes *)

Definition code (c : ascii) : N := N_of_ascii c.
Definition between (a b : N) (c : ascii) : bool := (a <=? code c) && (code c <=? b).
Definition is_digit : ascii -> bool := between 48 57.
Definition is_alpha (c : ascii) : bool := between 65 90 c || between 97 122 c || (code c =? 95).
Definition is_alnum (c : ascii) : bool := is_alpha c || is_digit c.
Definition is_ws (c : ascii) : bool := (code c =? 32) || (code c =? 10) || (code c =? 9) || (code c =? 13).
Fixpoint span (p : ascii -> bool) (s : string) : string * string :=
  match s with
  | String c s' => if p c then let (a, b) := span p s' in (String c a, b) else ("", s)
  | EmptyString => ("", "")
  end.
(** Digits in a base, underscores ignored; what is left is the suffix. *)
Definition digit (c : ascii) : N :=
  if is_digit c then code c - 48 else if between 97 102 c then code c - 87 else if between 65 70 c then code c - 55 else 99.
Fixpoint number (base acc : N) (s : string) : N * string :=
  match s with
  | String c s' => if code c =? 95 then number base acc s' else if digit c <? base then number base (acc * base + digit c) s' else (acc, s)
  | EmptyString => (acc, "")
  end.
Definition literal (w : string) : tok :=
  let '(n, suf) :=
    match w with
    | String "0" (String "x" r) => number 16 0 r
    | String "0" (String "b" r) => number 2 0 r
    | _ => number 10 0 w
    end in TNum n suf.
Definition puncts3 : list string := ["..="; "<<="; ">>="].
Definition puncts2 : list string :=
  ["::"; "->"; "=>"; ".."; "<<"; ">>"; "<="; ">="; "=="; "!="; "&&"; "||"; "+="; "-="; "*="; "/="; "^="; "&="; "|="; "%="].
Fixpoint lex (fuel : nat) (s : string) : option (list tok) :=
  match fuel, s with
  | _, EmptyString => Some []
  | O, _ => None
  | S f, String c r =>
      let cons t rest := option_map (cons t) (lex f rest) in
      if is_ws c then lex f r
      else if prefix "//" s then let (_, rest) := span (fun c => negb (code c =? 10)) s in lex f rest
      else if is_alpha c then let (w, rest) := span is_alnum s in cons (TId w) rest
      else if is_digit c then let (w, rest) := span is_alnum s in cons (literal w) rest
      else if code c =? 34 then
        let (w, rest) := span (fun c => negb (code c =? 34)) r in
        match rest with String _ rest => cons (TStr w) rest | EmptyString => None end
      else if code c =? 39 then let (_, rest) := span is_alnum r in lex f rest          (* lifetimes *)
      else if existsb (fun p => prefix p s) puncts3 then cons (TP (substring 0 3 s)) (substring 3 (String.length s) s)
      else if existsb (fun p => prefix p s) puncts2 then cons (TP (substring 0 2 s)) (substring 2 (String.length s) s)
      else cons (TP (String c "")) r
  end.

(** ** Abstract syntax *)
Inductive ty :=
| TyPath (p : list string)
| TyApp (s : string) (t : ty)           (* a generic type and its first argument *)
| TyArr (t : ty)                        (* arrays and slices *)
| TyRef (m : bool) (t : ty)
| TyOther.
Inductive pat := PVar (x : string) | PWild | PTup (l : list pat).
Inductive expr :=
| ENum (n : N) (suf : string)
| EStr (s : string)
| EPath (p : list string) (targs : list ty)
| EFld (e : expr) (f : string)
| EIdx (e i : expr)
| ERng (a b : option expr)
| ENot (e : expr)
| EDeref (e : expr)
| ERef (m : bool) (e : expr)
| EBin (op : string) (a b : expr)
| EAsn (op : string) (a b : expr)       (* [a op= b]; [op] is empty for [a = b] *)
| ECast (e : expr) (t : ty)
| ECall (p : list string) (targs : list ty) (args : list expr)
| EMeth (e : expr) (m : string) (args : list expr)
| EMac (m : string) (args : list expr)
| EIf (c t : expr) (f : option expr)
| EFor (x : pat) (e body : expr)
| EBlk (ss : list stmt) (tail : option expr)
| EArr (l : list expr)
| ERep (e n : expr)
| ETup (l : list expr)
| EStruct (s : string) (fs : list (string * expr))
| EClo (ps : list pat) (body : expr)
| ERet (e : option expr)
with stmt :=
| SLet (x : pat) (t : option ty) (e : expr)
| SExpr (e : expr)
| SFn (name : string) (ps : list (string * ty)) (ret : option ty) (body : expr).
(** How a function takes [self]. *)
Inductive recv := NoSelf | SelfVal | SelfRef | SelfMut.
Record fn := Fn { f_owner : string; f_name : string; f_self : recv; f_params : list (string * ty); f_ret : option ty; f_body : expr }.
Inductive item :=
| IFn (f : fn)
| IConst (name : string) (t : ty) (e : expr)
| IStruct (name : string) (fs : list (string * ty)).

(** ** Parser *)
(** Skips to after the closing angle bracket; [d] are open. *)
Fixpoint skip_angle (d : nat) (ts : list tok) : option (list tok) :=
  match ts with
  | TP "<" :: r => skip_angle (S d) r
  | TP ">" :: r => match d with 1%nat => Some r | S d => skip_angle d r | O => None end
  | TP ">>" :: r => match d with 2%nat => Some r | S (S d) => skip_angle d r | _ => None end
  | _ :: r => skip_angle d r
  | [] => None
  end.
Definition opens (s : string) : bool := (s =? "(")%string || (s =? "[")%string || (s =? "{")%string.
Definition closes (s : string) : bool := (s =? ")")%string || (s =? "]")%string || (s =? "}")%string.
(** Skips to after the bracket that closes the one already read. *)
Fixpoint skip_close (d : nat) (ts : list tok) : option (list tok) :=
  match ts with
  | TP s :: r => if opens s then skip_close (S d) r
                 else if closes s then match d with O => Some r | S d => skip_close d r end
                 else skip_close d r
  | _ :: r => skip_close d r
  | [] => None
  end.
(** Attributes and visibility. *)
Fixpoint skip_attrs (fuel : nat) (ts : list tok) : option (list tok) :=
  match fuel, ts with
  | S f, TP "#" :: TP "!" :: TP "[" :: r | S f, TP "#" :: TP "[" :: r => match skip_close 0 r with Some r => skip_attrs f r | None => None end
  | S f, TId "pub" :: TP "(" :: r => match skip_close 0 r with Some r => skip_attrs f r | None => None end
  | S f, TId "pub" :: r => skip_attrs f r
  | _, _ => Some ts
  end.
(** A type up to a [,] or a closing bracket, as in [impl Trait<..>]. *)
Fixpoint skip_type (d : nat) (ts : list tok) : list tok :=
  match ts with
  | TP "<" :: r => skip_type (S d) r
  | TP ">" :: r => match d with O => ts | S d => skip_type d r end
  | TP "," :: r | TP ")" :: r => match d with O => ts | _ => skip_type d r end
  | _ :: r => skip_type d r
  | [] => []
  end.
Fixpoint p_ty (fuel : nat) (ts : list tok) : option (ty * list tok) :=
  match fuel with
  | O => None
  | S f =>
      match ts with
      | TP "&" :: TId "mut" :: r => option_map (fun x => (TyRef true (fst x), snd x)) (p_ty f r)
      | TP "&" :: r => option_map (fun x => (TyRef false (fst x), snd x)) (p_ty f r)
      | TP "[" :: r =>
          match p_ty f r with
          | Some (t, r) => option_map (fun r => (TyArr t, r)) (skip_close 0 r)
          | None => None
          end
      | TP "(" :: r => option_map (fun r => (TyOther, r)) (skip_close 0 r)
      | TId "impl" :: r => Some (TyOther, skip_type 0 r)
      | TP "<" :: r => match skip_angle 1 r with Some (TP "::" :: TId s :: r) => Some (TyPath [s], r) | _ => None end
      | TId s :: TP "<" :: r =>
          match skip_angle 1 r with
          | Some r' => Some (match p_ty f r with Some (t, _) => TyApp s t | None => TyOther end, r')
          | None => None
          end
      | TId s :: TP "::" :: r =>
          match p_ty f r with
          | Some (TyPath p, r) => Some (TyPath (s :: p), r)
          | Some (t, r) => Some (t, r)
          | None => None
          end
      | TId s :: r => Some (TyPath [s], r)
      | _ => None
      end
  end.
Fixpoint p_tys (fuel : nat) (ts : list tok) : list ty :=       (* the arguments of a turbofish *)
  match fuel with
  | O => []
  | S f => match p_ty f ts with
           | Some (t, TP "," :: r) => t :: p_tys f r
           | Some (t, _) => [t]
           | None => []
           end
  end.
Fixpoint p_pat (fuel : nat) (ts : list tok) : option (pat * list tok) :=
  match fuel with
  | O => None
  | S f =>
      match ts with
      | TId "mut" :: TId x :: r => Some (PVar x, r)
      | TId "_" :: r => Some (PWild, r)
      | TId x :: r => Some (PVar x, r)
      | TP "&" :: r => p_pat f r
      | TP "(" :: r =>
          (fix go (n : nat) (ts : list tok) (acc : list pat) : option (pat * list tok) :=
             match n with
             | O => None
             | S n =>
                 match ts with
                 | TP ")" :: r => Some (PTup (rev acc), r)
                 | TP "," :: r => go n r acc
                 | _ => match p_pat f ts with Some (p, r) => go n r (p :: acc) | None => None end
                 end
             end) f r []
      | _ => None
      end
  end.

(** Precedence: higher binds tighter. *)
Definition power (op : string) : nat :=
  match op with
  | "*" | "/" | "%" => 11
  | "+" | "-" => 10
  | "<<" | ">>" => 9
  | "&" => 8
  | "^" => 7
  | "|" => 6
  | "==" | "!=" | "<" | ">" | "<=" | ">=" => 5
  | "&&" => 4
  | "||" => 3
  | _ => 0
  end%nat.
Definition assign_op (op : string) : option string :=
  match op with
  | "=" => Some ""
  | "+=" => Some "+" | "-=" => Some "-" | "*=" => Some "*" | "/=" => Some "/" | "%=" => Some "%"
  | "^=" => Some "^" | "&=" => Some "&" | "|=" => Some "|" | "<<=" => Some "<<" | ">>=" => Some ">>"
  | _ => None
  end.
Definition capital (s : string) : bool := match s with String c _ => between 65 90 c | EmptyString => false end.
(** Tokens after which a range has no upper end. *)
Definition ends (ts : list tok) : bool :=
  match ts with TP s :: _ => closes s || (s =? "{")%string || (s =? ",")%string || (s =? ";")%string | [] => true | _ => false end.

(** [ns]: no struct literal here (the head of an [if] or [for]). *)
Fixpoint p_expr (fuel : nat) (ns : bool) (bp : nat) (ts : list tok) {struct fuel} : option (expr * list tok) :=
  match fuel with
  | O => None
  | S f =>
      match ts with
      | TP ".." :: r =>
          if ends r then Some (ERng None None, r)
          else match p_expr f ns 3 r with Some (b, r) => Some (ERng None (Some b), r) | None => None end
      | _ => match p_prefix f ns ts with Some (a, r) => p_infix f ns bp a r | None => None end
      end
  end
with p_infix (fuel : nat) (ns : bool) (bp : nat) (a : expr) (ts : list tok) {struct fuel} : option (expr * list tok) :=
  match fuel with
  | O => None
  | S f =>
      match ts with
      | TId "as" :: r =>
          if (bp <=? 12)%nat
          then match p_ty f r with Some (t, r) => p_infix f ns bp (ECast a t) r | None => None end
          else Some (a, ts)
      | TP ".." :: r =>
          if (bp <=? 2)%nat
          then if ends r then Some (ERng (Some a) None, r)
               else match p_expr f ns 3 r with Some (b, r) => Some (ERng (Some a) (Some b), r) | None => None end
          else Some (a, ts)
      | TP op :: r =>
          match assign_op op with
          | Some o =>
              if (bp <=? 1)%nat
              then match p_expr f ns 1 r with Some (b, r) => Some (EAsn o a b, r) | None => None end
              else Some (a, ts)
          | None =>
              let p := power op in
              if ((0 <? p) && (bp <=? p))%nat
              then match p_expr f ns (S p) r with Some (b, r) => p_infix f ns bp (EBin op a b) r | None => None end
              else Some (a, ts)
          end
      | _ => Some (a, ts)
      end
  end
with p_prefix (fuel : nat) (ns : bool) (ts : list tok) {struct fuel} : option (expr * list tok) :=
  match fuel with
  | O => None
  | S f =>
      let un g r := match p_prefix f ns r with Some (e, r) => Some (g e, r) | None => None end in
      match ts with
      | TP "!" :: r => un ENot r
      | TP "*" :: r => un EDeref r
      | TP "&" :: TId "mut" :: r => un (ERef true) r
      | TP "&" :: r => un (ERef false) r
      | TP "|" :: r =>
          (fix go (n : nat) (ts : list tok) (acc : list pat) : option (expr * list tok) :=
             match n with
             | O => None
             | S n =>
                 match ts with
                 | TP "|" :: r => match p_expr f false 0 r with Some (e, r) => Some (EClo (rev acc) e, r) | None => None end
                 | TP "," :: r => go n r acc
                 | _ => match p_pat f ts with Some (p, r) => go n r (p :: acc) | None => None end
                 end
             end) f r []
      | _ => match p_prim f ns ts with Some (e, r) => p_post f e r | None => None end
      end
  end
with p_post (fuel : nat) (e : expr) (ts : list tok) {struct fuel} : option (expr * list tok) :=
  match fuel with
  | O => None
  | S f =>
      match ts with
      | TP "." :: TNum n _ :: r => p_post f (EFld e (match n with 0 => "0" | _ => "1" end)) r
      | TP "." :: TId m :: TP "(" :: r => match p_args f r [] with Some (a, r) => p_post f (EMeth e m a) r | None => None end
      | TP "." :: TId m :: r => p_post f (EFld e m) r
      | TP "[" :: r => match p_expr f false 0 r with Some (i, TP "]" :: r) => p_post f (EIdx e i) r | _ => None end
      | _ => Some (e, ts)
      end
  end
(** Arguments up to the closing bracket, of whichever kind. *)
with p_args (fuel : nat) (ts : list tok) (acc : list expr) {struct fuel} : option (list expr * list tok) :=
  match fuel with
  | O => None
  | S f =>
      match ts with
      | TP ")" :: r | TP "]" :: r => Some (rev acc, r)
      | TP "," :: r => p_args f r acc
      | _ => match p_expr f false 0 ts with Some (e, r) => p_args f r (e :: acc) | None => None end
      end
  end
with p_prim (fuel : nat) (ns : bool) (ts : list tok) {struct fuel} : option (expr * list tok) :=
  match fuel with
  | O => None
  | S f =>
      match ts with
      | TNum n s :: r => Some (ENum n s, r)
      | TStr s :: r => Some (EStr s, r)
      | TP "(" :: r =>
          match p_args f r [] with
          | Some ([e], r') => Some (e, r')          (* no one-element tuples in this code *)
          | Some (l, r') => Some (ETup l, r')
          | None => None
          end
      | TP "[" :: r =>
          match p_expr f false 0 r with
          | Some (e, TP ";" :: r) => match p_expr f false 0 r with Some (n, TP "]" :: r) => Some (ERep e n, r) | _ => None end
          | _ => match p_args f r [] with Some (l, r) => Some (EArr l, r) | None => None end
          end
      | TP "{" :: r => p_block f r []
      | TId "if" :: r =>
          match p_expr f true 0 r with
          | Some (c, TP "{" :: r) =>
              match p_block f r [] with
              | Some (t, TId "else" :: r) => match p_prim f false r with Some (e, r) => Some (EIf c t (Some e), r) | None => None end
              | Some (t, r) => Some (EIf c t None, r)
              | None => None
              end
          | _ => None
          end
      | TId "for" :: r =>
          match p_pat f r with
          | Some (x, TId "in" :: r) =>
              match p_expr f true 0 r with
              | Some (e, TP "{" :: r) => match p_block f r [] with Some (b, r) => Some (EFor x e b, r) | None => None end
              | _ => None
              end
          | _ => None
          end
      | TId "return" :: TP ";" :: r => Some (ERet None, TP ";" :: r)
      | TId "return" :: r => match p_expr f ns 0 r with Some (e, r) => Some (ERet (Some e), r) | None => None end
      | TId "unsafe" :: TP "{" :: r => p_block f r []
      | TId s :: TP "!" :: TP "(" :: r => match p_args f r [] with Some (a, r) => Some (EMac s a, r) | None => None end
      | TId s :: r => p_path f ns [s] [] r
      | _ => None
      end
  end
with p_path (fuel : nat) (ns : bool) (p : list string) (targs : list ty) (ts : list tok) {struct fuel} : option (expr * list tok) :=
  match fuel with
  | O => None
  | S f =>
      match ts with
      | TP "::" :: TP "<" :: r => match skip_angle 1 r with Some r' => p_path f ns p (p_tys f r) r' | None => None end
      | TP "::" :: TId s :: r => p_path f ns (p ++ [s])%list targs r
      | TP "(" :: r => match p_args f r [] with Some (a, r) => Some (ECall p targs a, r) | None => None end
      | TP "{" :: r =>
          if negb ns && capital (last p "")
          then (fix go (n : nat) (ts : list tok) (acc : list (string * expr)) : option (expr * list tok) :=
                  match n with
                  | O => None
                  | S n =>
                      match ts with
                      | TP "}" :: r => Some (EStruct (last p "") (rev acc), r)
                      | TP "," :: r => go n r acc
                      | TId x :: TP ":" :: r => match p_expr f false 0 r with Some (e, r) => go n r ((x, e) :: acc) | None => None end
                      | TId x :: r => go n r ((x, EPath [x] []) :: acc)
                      | _ => None
                      end
                  end) f r []
          else Some (EPath p targs, ts)
      | _ => Some (EPath p targs, ts)
      end
  end
with p_block (fuel : nat) (ts : list tok) (acc : list stmt) {struct fuel} : option (expr * list tok) :=
  match fuel with
  | O => None
  | S f =>
      let after e r :=
        match r with
        | TP ";" :: r => p_block f r (SExpr e :: acc)
        | TP "}" :: r => Some (EBlk (rev acc) (Some e), r)
        | _ => None
        end in
      let after_block e r :=
        match r with
        | TP "}" :: r => Some (EBlk (rev acc) (Some e), r)
        | _ => p_block f r (SExpr e :: acc)
        end in
      match skip_attrs f ts with
      | Some (TP "}" :: r) => Some (EBlk (rev acc) None, r)
      | Some (TP ";" :: r) => p_block f r acc
      | Some (TId "let" :: r) =>
          match p_pat f r with
          | Some (x, TP ":" :: r) =>
              match p_ty f r with
              | Some (t, TP "=" :: r) => match p_expr f false 0 r with Some (e, TP ";" :: r) => p_block f r (SLet x (Some t) e :: acc) | _ => None end
              | _ => None
              end
          | Some (x, TP "=" :: r) => match p_expr f false 0 r with Some (e, TP ";" :: r) => p_block f r (SLet x None e :: acc) | _ => None end
          | _ => None
          end
      | Some (TId "cfg_if" :: TP "!" :: TP "{" :: r) =>
          (* the one such statement read, in [ChaChaCore::new_internal], binds the detection
             tokens (see [Cfg.v] for its arms); here they are the unit value *)
          match skip_close 0 r with Some r => p_block f r (SLet (PVar "tokens") None (ETup []) :: acc) | None => None end
      | Some (TId "fn" :: r) =>
          match p_fn f r with
          | Some (g, r) => p_block f r (SFn (f_name g) (f_params g) (f_ret g) (f_body g) :: acc)
          | None => None
          end
      | Some ((TId "for" :: _ | TId "if" :: _ | TP "{" :: _) as ts) =>
          match p_prim f false ts with Some (e, r) => after_block e r | None => None end
      | Some ts => match p_expr f false 0 ts with Some (e, r) => after e r | None => None end
      | None => None
      end
  end
(** After [fn]. *)
with p_fn (fuel : nat) (ts : list tok) {struct fuel} : option (fn * list tok) :=
  match fuel with
  | O => None
  | S f =>
      match ts with
      | TId name :: r =>
          match (match r with TP "<" :: r => skip_angle 1 r | _ => Some r end) with
          | Some (TP "(" :: r) =>
              let '(self, r) := match r with
                | TP "&" :: TId "mut" :: TId "self" :: r => (SelfMut, r)
                | TP "&" :: TId "self" :: r => (SelfRef, r)
                | TId "mut" :: TId "self" :: r | TId "self" :: r => (SelfVal, r)
                | _ => (NoSelf, r)
                end in
              match (fix go (n : nat) (ts : list tok) (acc : list (string * ty)) : option (list (string * ty) * list tok) :=
                       match n with
                       | O => None
                       | S n =>
                           match ts with
                           | TP ")" :: r => Some (rev acc, r)
                           | TP "," :: r | TId "mut" :: r => go n r acc
                           | TId x :: TP ":" :: r => match p_ty f r with Some (t, r) => go n r ((x, t) :: acc) | None => None end
                           | _ => None
                           end
                       end) f r [] with
              | Some (ps, TP "->" :: r) =>
                  match p_ty f r with
                  | Some (t, TP "{" :: r) => match p_block f r [] with Some (b, r) => Some (Fn "" name self ps (Some t) b, r) | None => None end
                  | _ => None
                  end
              | Some (ps, TP "{" :: r) => match p_block f r [] with Some (b, r) => Some (Fn "" name self ps None b, r) | None => None end
              | _ => None
              end
          | _ => None
          end
      | _ => None
      end
  end.
(** The type an [impl] is for: the last name before its body, generics left out. *)
Fixpoint impl_head (d : nat) (name : string) (ts : list tok) : option (string * list tok) :=
  match ts with
  | TP "<" :: r => impl_head (S d) name r
  | TP ">" :: r => impl_head (pred d) name r
  | TP ">>" :: r => impl_head (pred (pred d)) name r
  | TP "{" :: r => Some (name, r)
  | TId s :: r => impl_head d (match d with O => s | _ => name end) r
  | _ :: r => impl_head d name r
  | [] => None
  end.
(** Fields of a struct, named or numbered. *)
Fixpoint p_fields (fuel : nat) (i : nat) (ts : list tok) (acc : list (string * ty)) : option (list (string * ty) * list tok) :=
  match fuel with
  | O => None
  | S f =>
      match skip_attrs f ts with
      | Some (TP "}" :: r) | Some (TP ")" :: TP ";" :: r) => Some (rev acc, r)
      | Some (TP "," :: r) => p_fields f i r acc
      | Some (TId x :: TP ":" :: r) => match p_ty f r with Some (t, r) => p_fields f i r ((x, t) :: acc) | None => None end
      | Some ts => match p_ty f ts with Some (t, r) => p_fields f (S i) r ((match i with O => "0" | _ => "1" end, t) :: acc) | None => None end
      | None => None
      end
  end.
Fixpoint skip_semi (ts : list tok) : list tok :=
  match ts with TP ";" :: r => r | _ :: r => skip_semi r | [] => [] end.
Definition owned (o : string) (g : fn) : fn := Fn o (f_name g) (f_self g) (f_params g) (f_ret g) (f_body g).
(** Items; [owner] is the type of the [impl] block we are in. *)
Fixpoint p_items (fuel : nat) (owner : string) (ts : list tok) (acc : list item) : option (list item) :=
  match fuel with
  | O => None
  | S f =>
      match skip_attrs f ts with
      | None => None
      | Some [] => Some (rev acc)
      | Some (TP "}" :: r) => p_items f "" r acc
      | Some (TId "fn" :: r) => match p_fn f r with Some (g, r) => p_items f owner r (IFn (owned owner g) :: acc) | None => None end
      | Some (TId "const" :: TId x :: TP ":" :: r) =>
          match p_ty f r with
          | Some (t, TP "=" :: r) => match p_expr f false 0 r with Some (e, TP ";" :: r) => p_items f owner r (IConst (if (owner =? "")%string then x else owner ++ "::" ++ x) t e :: acc) | _ => None end
          | _ => None
          end
      | Some (TId "struct" :: TId x :: r) =>
          match (match r with TP "<" :: r => skip_angle 1 r | _ => Some r end) with
          | Some (TP ";" :: r) => p_items f owner r (IStruct x [] :: acc)
          | Some (TP "{" :: r) | Some (TP "(" :: r) => match p_fields f 0 r [] with Some (fs, r) => p_items f owner r (IStruct x fs :: acc) | None => None end
          | _ => None
          end
      | Some (TId "impl" :: r) => match impl_head 0 "" r with Some (o, r) => p_items f o r acc | None => None end
      | Some (TId "type" :: r) | Some (TId "use" :: r) => p_items f owner (skip_semi r) acc
      | Some _ => None
      end
  end.
Definition parse (s : string) : option (list item) :=
  match lex (String.length s) s with
  | Some ts => p_items (4 * List.length ts + 20) "" ts []
  | None => None
  end.
