(** What the programs read by [RustSyntax.v] do: an evaluator for the part of Rust in which the
    portable code of the crates is written.

    From the Rust reference and the documentation of [core]: arithmetic on unsigned integers
    with and without overflow checks, indexing and slicing with bounds checks, assignment
    through references and slices, loops over ranges and iterators, calls.

    Simplifications, all sound for programs the compiler accepts: a function's reference
    arguments are copied in and, for [&mut], copied out (mutable borrows do not alias); a
    reference is a local variable with a path of fields and indices; an integer literal has
    the type [Any] until it meets a typed value (the compiler's inference); an iterator is
    the list of its items (the iterators of this code have no effects); [try_into] to an
    integer is decided by the declared result type; [try_into] from a slice to an array
    keeps the slice (array types are read without their lengths); [debug_assert_eq!] is on
    exactly when overflow checks are. *)
From Coq Require Import String.
From Verif Require Export Word Res RustSyntax.
Local Open Scope string_scope.
Local Open Scope N_scope.
Local Open Scope list_scope.

(** ** Values *)
Inductive ity := U8 | U16 | U32 | U64 | U128 | Usz | Any.
(** Steps of a path into a value: a field, an element, a part of [n] elements from [s] on. *)
Inductive proj := PF (f : string) | PI (i : N) | PR (s n : N).
Inductive val :=
| VInt (t : ity) (n : N)
| VBool (b : bool)
| VArr (t : ity) (l : list N)           (* arrays and slices of integers *)
| VTup (l : list val)                   (* tuples; the empty one is () *)
| VStruct (s : string) (fs : list (string * val))
| VCon (c : string) (l : list val)      (* Some, None, Ok, Err *)
| VRef (x : string) (p : list proj)
| VRng (t : ity) (a b : N)
| VFrom (a : N)                         (* a.., only as an index *)
| VIter (l : list val)
| VCyc (l : list val)                   (* .cycle() *)
| VPend (n : N).                        (* .try_into(), target type still open *)
Notation VUnit := (VTup []) (only parsing).
Definition env := list (string * val).
(** A computation ends with a value, a panic, or early with [return]; [XStuck]: outside the
    modelled language (or ill-typed).  The last two are computations whose course depends on
    an arithmetic operation that may overflow, and on a bounds check; [flat] performs them. *)
Inductive X (A : Type) :=
| XOk (a : A)
| XPanic
| XStuck
| XRet (v : val) (r : env)
| XRes (m : Res N) (k : N -> X A)
| XChk (b : bool) (k : X A).
Arguments XOk {A}. Arguments XPanic {A}. Arguments XStuck {A}. Arguments XRet {A}. Arguments XRes {A}. Arguments XChk {A}.
Fixpoint xbind {A B} (m : X A) (f : A -> X B) : X B :=
  match m with
  | XOk a => f a
  | XPanic => XPanic
  | XStuck => XStuck
  | XRet v r => XRet v r
  | XRes m k => XRes m (fun n => xbind (k n) f)
  | XChk b k => XChk b (xbind k f)
  end.
Fixpoint flat {A} (m : X A) : X A :=
  match m with
  | XRes (Ok n) k => flat (k n)
  | XRes Panic _ => XPanic
  | XChk b k => if b then flat k else XPanic
  | _ => m
  end.
Notation "'let!' x := m 'in' f" := (xbind m (fun x => f)) (at level 200, x pattern, m at level 100, f at level 200).
Definition lift {A} (r : Res A) : X A := match r with Ok a => XOk a | Panic => XPanic end.
Definition of_opt {A} (o : option A) : X A := match o with Some a => XOk a | None => XStuck end.

(** ** Types *)
Definition ity_of (s : string) : option ity :=
  match s with
  | "u8" => Some U8 | "u16" => Some U16 | "u32" => Some U32 | "u64" => Some U64 | "u128" => Some U128 | "usize" => Some Usz
  | _ => None
  end.
Definition ity_eqb (a b : ity) : bool :=
  match a, b with
  | U8, U8 | U16, U16 | U32, U32 | U64, U64 | U128, U128 | Usz, Usz | Any, Any => true
  | _, _ => false
  end.
Definition unify (a b : ity) : option ity :=
  match a, b with Any, t | t, Any => Some t | _, _ => if ity_eqb a b then Some a else None end.
Fixpoint assoc {A} (x : string) (l : list (string * A)) : option A :=
  match l with [] => None | (y, v) :: l => if (x =? y)%string then Some v else assoc x l end.
Definition path_name (p : list string) : string := String.concat "::" p.

(** What the compiler knows: overflow checks, the width of [usize], struct fields, constants
    (also [R::COUNT] and the like, of the instance considered), type parameters. *)
Record genv := { g_ck : bool; g_usz : N; g_structs : list (string * list (string * ty)); g_consts : list (string * val);
                 g_tys : list (string * ity); g_alias : list (string * string);
                 g_defer : bool   (* whether proofs keep operations on [usize] symbolic, see [small] *) }.
Section Sem.
Context (g : genv) (prog : list fn).

Definition bits (t : ity) : N := match t with U8 => 8 | U16 => 16 | U32 => 32 | U64 => 64 | U128 => 128 | Usz => g_usz g | Any => 128 end.
Definition modulus (t : ity) : N := match t with U8 => 256 | U16 => 65536 | U32 => M32 | U64 => M64 | U128 | Any => 0x100000000000000000000000000000000
  | Usz => match g_usz g with 16 => 65536 | 32 => M32 | 64 => M64 | w => 2 ^ w end end.
Definition ty_ity (t : ty) : option ity :=
  match t with
  | TyPath p => match assoc (path_name p) (g_tys g) with Some k => Some k | None => match p with [s] => ity_of s | _ => None end end
  | _ => None
  end.
(** Whether a conversion succeeds. *)
Definition w_fits (m n : N) : bool := n <? m.
(** A literal, or an open conversion, meets its type. *)
Fixpoint coerce (t : ty) (v : val) : val :=
  match t, v with
  | TyRef _ t, _ => coerce t v
  | TyArr t, VArr Any l => match ty_ity t with Some k => VArr k l | None => v end
  | TyPath _, VInt Any n => match ty_ity t with Some k => VInt k n | None => v end
  | TyApp _ t, VPend n => match ty_ity t with Some k => if w_fits (modulus k) n then VCon "Some" [VInt k n] else VCon "None" [] | None => v end
  | _, _ => v
  end.

(** ** Arithmetic *)
(** The operations on [u8] .. [u128] and those on [usize] and untyped literals compute alike;
    the two names let proofs keep the first symbolic ([small] tells which name is used). *)
Definition w_add := add_ck. Definition w_sub := sub_ck. Definition w_mul := mul_ck.
Definition z_add := add_ck. Definition z_sub := sub_ck. Definition z_mul := mul_ck.
Definition w_and := N.land. Definition w_or := N.lor. Definition w_xor := N.lxor.
Definition w_shl (m a k : N) : N := (N.shiftl a k) mod m.
Definition w_shr (a k : N) : N := N.shiftr a k.
Definition z_shl (m a k : N) : N := (N.shiftl a k) mod m.
Definition z_shr (a k : N) : N := N.shiftr a k.
Definition w_div := N.div. Definition w_mod := N.modulo.
Definition w_trunc (m a : N) : N := a mod m.
Definition w_ltb := N.ltb.
Definition w_sum (m a b : N) : N := (a + b) mod m.
Definition w_diff (m a b : N) : N := (a + (m - b mod m)) mod m.
Definition w_prod (m a b : N) : N := (a * b) mod m.
Definition small (t : ity) : bool := match t with Any => false | Usz => g_defer g | _ => true end.
Definition int_op (op : string) (t : ity) (a b : N) : X N :=
  let m := modulus t in let ck := g_ck g in let s := small t in
  match op with
  | "+" => if s then XRes (w_add ck m a b) XOk else lift (z_add ck m a b)
  | "-" => if s then XRes (w_sub ck m a b) XOk else lift (z_sub ck m a b)
  | "*" => if s then XRes (w_mul ck m a b) XOk else lift (z_mul ck m a b)
  | "/" => if b =? 0 then XPanic else XOk ((if s then w_div else N.div) a b)
  | "%" => if b =? 0 then XPanic else XOk ((if s then w_mod else N.modulo) a b)
  | "&" => XOk ((if s then w_and else N.land) a b)
  | "|" => XOk ((if s then w_or else N.lor) a b)
  | "^" => XOk ((if s then w_xor else N.lxor) a b)
  | _ => XStuck
  end.
Definition shift_op (op : string) (t : ity) (a k : N) : X N :=
  if k <? bits t
  then match op with
       | "<<" => XOk ((if small t then w_shl else z_shl) (modulus t) a k)
       | ">>" => XOk ((if small t then w_shr else z_shr) a k)
       | _ => XStuck
       end
  else if g_ck g then XPanic else XStuck.
Definition cmp_op (op : string) (s : bool) (a b : N) : option bool :=
  match op with
  | "==" => Some (a =? b) | "!=" => Some (negb (a =? b))
  | "<" => Some ((if s then w_ltb else N.ltb) a b) | ">" => Some ((if s then w_ltb else N.ltb) b a) | "<=" => Some (a <=? b) | ">=" => Some (b <=? a)
  | _ => None
  end.
Definition is_cmp (op : string) : bool := match cmp_op op false 0 0 with Some _ => true | None => false end.
Definition is_shift (op : string) : bool := (op =? "<<")%string || (op =? ">>")%string.
(** Comparison of two slices: their lengths and all elements. *)
Fixpoint same_list (a b : list N) : bool :=
  match a, b with
  | [], [] => true
  | x :: a, y :: b => if x =? y then same_list a b else false
  | _, _ => false
  end.
Definition bin (op : string) (v w : val) : X val :=
  match v, w with
  | VInt t a, VInt u b =>
      if is_shift op then let! n := shift_op op t a b in XOk (VInt t n)
      else let! k := of_opt (unify t u) in
           if is_cmp op then let! b := of_opt (cmp_op op (small k) a b) in XOk (VBool b)
           else let! n := int_op op k a b in XOk (VInt k n)
  | VArr _ a, VArr _ b => if (op =? "==")%string then XOk (VBool (same_list a b)) else XStuck
  | _, _ => XStuck
  end.
Definition cast (k : ity) (v : val) : X val :=
  match v with
  | VInt t a => XOk (VInt k (if (bits t <=? bits k) && negb (ity_eqb t Any) then a else w_trunc (modulus k) a))
  | _ => XStuck
  end.
(** [rotate_left] and [rotate_right] for all widths (those of [u32] are [rotl32], [rotr32]). *)
Definition rotl (m w a r : N) : N := N.lor ((N.shiftl a r) mod m) (N.shiftr (a mod m) (w - r)).
(** Byte [i] of a little-endian number. *)
Definition le_byte (a i : N) : N := w_trunc 256 (w_shr a (8 * i)).
(** Numbers of a range. *)
Definition numbers (a b : N) : list N := map N.of_nat (seq (N.to_nat a) (N.to_nat (b - a))).
Definition int_meth (m : string) (t : ity) (a : N) (args : list val) : X val :=
  match m, args with
  | "wrapping_add", [VInt u b] => let! t := of_opt (unify t u) in
      XOk (VInt t (match t with U32 => add32 a b | U64 => add64 a b | _ => w_sum (modulus t) a b end))
  | "wrapping_sub", [VInt u b] => let! t := of_opt (unify t u) in
      XOk (VInt t (match t with U32 => sub32 a b | _ => w_diff (modulus t) a b end))
  | "wrapping_mul", [VInt u b] => let! t := of_opt (unify t u) in XOk (VInt t (w_prod (modulus t) a b))
  | "rotate_left", [VInt _ r] => XOk (VInt t (match t with U32 => rotl32 a r | _ => rotl (modulus t) (bits t) a r end))
  | "rotate_right", [VInt _ r] => XOk (VInt t (match t with U32 => rotr32 a r | _ => rotl (modulus t) (bits t) a (bits t - r) end))
  | "to_le_bytes", [] => match t with Any => XStuck | _ => XOk (VArr U8 (map (le_byte a) (numbers 0 (bits t / 8)))) end
  | "try_into", [] => XOk (VPend a)
  | "into", [] => XOk (VInt t a)
  | _, _ => XStuck
  end.

(** ** Arrays, paths *)
Definition inb (i : N) (l : list N) : bool := i <? N.of_nat (length l).
Definition in_range (s n : N) (l : list N) : bool := s + n <=? N.of_nat (length l).
Definition geti (l : list N) (i : N) : N := get l (N.to_nat i).
Definition updi (l : list N) (i v : N) : list N := upd l (N.to_nat i) v.
Definition part (l : list N) (s n : N) : list N := slice l (N.to_nat s) (N.to_nat n).
Definition splice (l : list N) (s n : N) (l' : list N) : list N := firstn (N.to_nat s) l ++ l' ++ skipn (N.to_nat s + N.to_nat n) l.
Fixpoint proj_get (v : val) (p : list proj) : X val :=
  match p with
  | [] => XOk v
  | PF f :: p => match v with
                 | VStruct _ fs => let! w := of_opt (assoc f fs) in proj_get w p
                 | VTup l => match f with "0" => let! w := of_opt (nth_error l 0) in proj_get w p
                                        | "1" => let! w := of_opt (nth_error l 1) in proj_get w p
                                        | _ => XStuck end
                 | VArr _ _ => match f with "0" => proj_get v p | _ => XStuck end     (* Array's inner array *)
                 | _ => XStuck
                 end
  | PI i :: p => match v with VArr t l => XChk (inb i l) (proj_get (VInt t (geti l i)) p) | _ => XStuck end
  | PR s n :: p => match v with VArr t l => XChk (in_range s n l) (proj_get (VArr t (part l s n)) p) | _ => XStuck end
  end.
Fixpoint assoc_set {A} (x : string) (v : A) (l : list (string * A)) : list (string * A) :=
  match l with [] => [] | (y, w) :: l => if (x =? y)%string then (y, v) :: l else (y, w) :: assoc_set x v l end.
Definition meet (t u : ity) : ity := match t with Any => u | _ => t end.
Fixpoint proj_set (v : val) (p : list proj) (new : val) : X val :=
  match p with
  | [] => XOk (match v, new with VInt t _, VInt u n => VInt (meet t u) n | VArr t _, VArr u l => VArr (meet t u) l | _, _ => new end)
  | PF f :: p => match v with
                 | VStruct s fs => let! w := of_opt (assoc f fs) in let! w' := proj_set w p new in XOk (VStruct s (assoc_set f w' fs))
                 | _ => XStuck
                 end
  | PI i :: p => match v, new with
                 | VArr t l, VInt u n => XChk (inb i l) (XOk (VArr (meet t u) (updi l i n)))
                 | _, _ => XStuck
                 end
  | PR s n :: p => match v with
                   | VArr t l => XChk (in_range s n l)
                                   (let! w := proj_set (VArr t (part l s n)) p new in
                                    match w with VArr u l' => XOk (VArr (meet t u) (splice l s n l')) | _ => XStuck end)
                   | _ => XStuck
                   end
  end.
Definition rd (r : env) (x : string) (p : list proj) : X val := let! v := of_opt (assoc x r) in proj_get v p.
Definition wr (r : env) (x : string) (p : list proj) (new : val) : X env :=
  let! v := of_opt (assoc x r) in let! v' := proj_set v p new in XOk (assoc_set x v' r).
(** The value behind a reference. *)
Definition deref (r : env) (v : val) : X val := match v with VRef x p => rd r x p | _ => XOk v end.
Definition len_of (v : val) : X N := match v with VArr _ l => XOk (N.of_nat (length l)) | _ => XStuck end.
(** An index or a range as the last step of a path, for a container [v]. *)
Definition step_of (v i : val) : X proj :=
  match i with
  | VInt _ n => XOk (PI n)
  | VFrom a => let! n := len_of v in if a <=? n then XOk (PR a (n - a)) else XPanic
  | VRng _ a b => if a <=? b then XOk (PR a (b - a)) else XPanic
  | _ => XStuck
  end.
Definition items (v : val) : X (list val) :=
  match v with
  | VRng t a b => XOk (map (VInt t) (numbers a b))
  | VIter l => XOk l
  | VArr t l => XOk (map (VInt t) l)
  | _ => XStuck
  end.
(** [n]-element parts, a shorter rest left out. *)
Definition chunks (n : N) (l : list N) : list (list N) :=
  map (fun i => part l (n * i) n) (numbers 0 (N.of_nat (length l) / n)).
Definition iter_meth (m : string) (v : val) (args : list val) : X val :=
  match m, args with
  | "zip", [w] =>
      let! a := items v in
      match w with
      | VCyc b => XOk (VIter (map (fun x => VTup [fst x; nth (snd x mod length b) b VUnit]) (combine a (seq 0 (length a)))))
      | _ => let! b := items w in XOk (VIter (map (fun x => VTup [fst x; snd x]) (combine a b)))
      end
  | "enumerate", [] => let! a := items v in XOk (VIter (map (fun x => VTup [VInt Usz (fst x); snd x]) (combine (numbers 0 (N.of_nat (length a))) a)))
  | "cycle", [] => let! a := items v in XOk (VCyc a)
  | "iter", [] | "into_iter", [] => let! a := items v in XOk (VIter a)
  | "as_ref", [] | "as_slice", [] | "into", [] | "try_into", [] | "unwrap", [] | "expect", [_] => XOk v
  | "split_at", [VInt _ n] =>
      match v with
      | VArr t l => if n <=? N.of_nat (length l) then XOk (VTup [VArr t (part l 0 n); VArr t (part l n (N.of_nat (length l) - n))]) else XPanic
      | _ => XStuck
      end
  | "len", [] => let! n := len_of v in XOk (VInt Usz n)
  | "chunks_exact", [VInt _ n] | "chunks", [VInt _ n] =>
      match v with VArr t l => XOk (VIter (map (VArr t) (chunks n l))) | _ => XStuck end
  | _, _ => XStuck
  end.
Definition con_meth (m c : string) (l : list val) (args : list val) : X val :=
  match m, c, l with
  | "unwrap", "Some", [v] | "unwrap", "Ok", [v] | "expect", "Some", [v] | "expect", "Ok", [v] => XOk v
  | "unwrap", _, _ | "expect", _, _ => XPanic
  | "ok", "Ok", [v] => XOk (VCon "Some" [v])
  | _, _, _ => XStuck
  end.
(** Methods that need no place. *)
Definition value_meth (m : string) (v : val) (args : list val) : X val :=
  match v with
  | VInt t a => int_meth m t a args
  | VPend n => match m with "ok" | "unwrap" => XOk v | _ => XStuck end
  | VCon c l => con_meth m c l args
  | _ => iter_meth m v args
  end.
Definition mut_meths : list string := ["iter_mut"; "chunks_exact_mut"; "split_at_mut"; "copy_from_slice"; "clone_from_slice"; "swap"].
(** Methods on a place holding [v]: a result and possibly a new content. *)
Definition place_meth (m : string) (x : string) (p : list proj) (v : val) (args : list val) : X (val * option val) :=
  match m, v, args with
  | "iter_mut", VArr t l, [] => XOk (VIter (map (fun i => VRef x (p ++ [PI i])) (numbers 0 (N.of_nat (length l)))), None)
  | "chunks_exact_mut", VArr t l, [VInt _ n] =>
      XOk (VIter (map (fun i => VRef x (p ++ [PR (n * i) n])) (numbers 0 (N.of_nat (length l) / n))), None)
  | "split_at_mut", VArr t l, [VInt _ n] =>
      if n <=? N.of_nat (length l) then XOk (VTup [VRef x (p ++ [PR 0 n]); VRef x (p ++ [PR n (N.of_nat (length l) - n)])], None) else XPanic
  | "copy_from_slice", VArr t l, [VArr u l'] | "clone_from_slice", VArr t l, [VArr u l'] =>
      XChk (length l =? length l')%nat (XOk (VUnit, Some (VArr (meet t u) l')))
  | "swap", VArr t l, [VInt _ i; VInt _ j] =>
      XChk (inb i l) (XChk (inb j l) (XOk (VUnit, Some (VArr t (updi (updi l i (geti l j)) j (geti l i))))))
  | _, _, _ => XStuck
  end.

(** ** Functions of [core] *)
Definition size_of (k : ity) : N := bits k / 8.
(** [u32::from] and the like. *)
Definition int_fn (m : string) (k : ity) (v : val) : X val :=
  match m, v with
  | "from", VInt u a => if bits u <=? bits k then XOk (VInt k a) else XStuck
  | "try_from", VInt u a => XOk (if w_fits (modulus k) a then VCon "Ok" [VInt k a] else VCon "Err" [])
  | "from_le_bytes", VArr _ l => if N.of_nat (length l) =? size_of k then XOk (VInt k (from_le l)) else XStuck
  | _, _ => XStuck
  end.
Definition free_fn (x : string) (targs : list ty) (args : list val) : option (X val) :=
  match x, args with
  | "size_of", [] => match targs with [t] => Some (let! k := of_opt (ty_ity t) in XOk (VInt Usz (size_of k))) | _ => None end
  | "size_of_val", [VArr t l] => Some (XOk (VInt Usz (N.of_nat (length l) * size_of t)))
  | "Some", [v] | "Ok", [v] | "Err", [v] => Some (XOk (VCon x [v]))
  | _, _ => None
  end.
Definition core_fn (p : list string) (targs : list ty) (args : list val) : option (X val) :=
  match p with
  | [x] => free_fn x targs args
  | [t; m] =>
      match ity_of t with
      | Some k => match args with [v] => Some (int_fn m k v) | _ => None end
      | None => if (path_name p =? "Array::slice_as_chunks")%string       (* U4 in this code *)
                then match args with [VArr t l] => Some (XOk (VTup [VIter (map (VArr t) (chunks 4 l)); VUnit])) | _ => None end
                else if (m =? "default")%string           (* of an array; its length, an inferred type, is given with the constants *)
                then Some (of_opt (assoc (path_name p) (g_consts g)))
                else None
      end
  | _ => None
  end.

(** ** Expressions *)
(** Runs the body for each item; the variables the body binds are dropped. *)
Fixpoint loop (body : val -> env -> X env) (l : list val) (r : env) : X env :=
  match l with [] => XOk r | v :: l => let! r := body v r in loop body l r end.
Definition pop (r0 r : env) : env := skipn (length r - length r0) r.
Fixpoint bind_pat (x : pat) (v : val) (r : env) : X env :=
  match x with
  | PVar x => XOk ((x, v) :: r)
  | PWild => XOk r
  | PTup l =>
      match v with
      | VTup vs =>
          (fix go (l : list pat) (vs : list val) (r : env) : X env :=
             match l, vs with
             | [], [] => XOk r
             | x :: l, v :: vs => let! r := bind_pat x v r in go l vs r
             | _, _ => XStuck
             end) l vs r
      | _ => XStuck
      end
  end.
(** The variable an expression of place form starts from. *)
Fixpoint root (e : expr) : option string :=
  match e with
  | EPath [x] _ => Some x
  | EFld e _ | EIdx e _ | EDeref e => root e
  | _ => None
  end.
Definition is_place (r : env) (e : expr) : bool :=
  match root e with Some x => match assoc x r with Some _ => true | None => false end | None => false end.
(** Calls go through [callf]: the values of the arguments, and back the result and the
    arguments as the function leaves them. *)
Context (callf : string -> list val -> X (val * list val)).
Definition resolve (owner s : string) : string :=
  if (s =? "Self")%string then owner else match assoc s (g_alias g) with Some t => t | None => s end.
Definition fn_key (f : fn) : string := if (f_owner f =? "")%string then f_name f else f_owner f ++ "::" ++ f_name f.
Definition find_fn (k : string) : option fn := find (fun f => (fn_key f =? k)%string) prog.
Definition outs (f : fn) : list bool :=
  (match f_self f with NoSelf => [] | SelfMut => [true] | _ => [false] end) ++ map (fun p => match snd p with TyRef true _ => true | _ => false end) (f_params f).
(** Arguments as passed: references by value, and where to write back. *)
Definition passed (r : env) (v : val) : X val := deref r v.
(** What an argument of [zip] yields: references to the elements, for a reference to an array. *)
Definition zipped (r : env) (v : val) : X val :=
  match v with
  | VRef x p => let! w := rd r x p in
                match w with VArr _ l => XOk (VIter (map (fun i => VRef x (p ++ [PI i])) (numbers 0 (N.of_nat (length l))))) | _ => XOk w end
  | _ => XOk v
  end.
Fixpoint xmap {A B} (f : A -> X B) (l : list A) : X (list B) :=
  match l with [] => XOk [] | a :: l => let! b := f a in let! bs := xmap f l in XOk (b :: bs) end.
Fixpoint write_back (ms : list bool) (args finals : list val) (r : env) : X env :=
  match ms, args, finals with
  | true :: ms, VRef x p :: args, v :: finals => let! r := wr r x p v in write_back ms args finals r
  | _ :: ms, _ :: args, _ :: finals => write_back ms args finals r
  | [], _, _ => XOk r
  | _, _, _ => XStuck
  end.
(** Methods of the crate [inout]; an [InOutBuf] is the pair of its input and its output.  (In
    place these are one buffer; an element is read here before it is written.) *)
Definition inout_meth (k : string) (args : list val) (r : env) : X (val * env) :=
  match k, args with
  | "InOutBuf::into_iter", [VRef x p] =>
      let! v := rd r x (p ++ [PF "0"]) in
      match v with
      | VArr _ l => XOk (VIter (map (fun i => VStruct "InOut" [("0", VRef x (p ++ [PF "0"; PI i])); ("1", VRef x (p ++ [PF "1"; PI i]))])
                                    (numbers 0 (N.of_nat (length l)))), r)
      | _ => XStuck
      end
  | "InOut::get_in", [VRef x p] => let! v := rd r x (p ++ [PF "0"]) in XOk (v, r)
  | "InOut::get_out", [VRef x p] => let! v := rd r x (p ++ [PF "1"]) in XOk (v, r)
  | _, _ => XStuck
  end.
(** An array passed on by name (a [&mut] parameter, borrowed again) is passed as the place. *)
Fixpoint reborrow (r : env) (es : list expr) (vs : list val) : list val :=
  match es, vs with
  | EPath [x] [] :: es, VArr t l :: vs => (if is_place r (EPath [x] []) then VRef x [] else VArr t l) :: reborrow r es vs
  | _ :: es, v :: vs => v :: reborrow r es vs
  | _, _ => vs
  end.
Definition user_call (k : string) (args : list val) (r : env) : X (val * env) :=
  match find_fn k with
  | Some f =>
      let! vs := xmap (passed r) args in
      let! (v, finals) := callf k vs in
      let! r := write_back (outs f) args finals r in
      XOk (v, r)
  | None => inout_meth k args r
  end.
(** Macros, on their arguments' values; [matches!] with a pattern of three literals. *)
Definition mac (m : string) (vs : list val) : X val :=
  match m, vs with
  | "assert", [VBool b] => if b then XOk VUnit else XPanic
  | "assert_eq", [v; w] => let! c := bin "==" v w in match c with VBool true => XOk VUnit | VBool false => XPanic | _ => XStuck end
  | "debug_assert_eq", [v; w] =>
      if g_ck g then let! c := bin "==" v w in match c with VBool true => XOk VUnit | VBool false => XPanic | _ => XStuck end else XOk VUnit
  | "matches", v :: ws => let! bs := xmap (fun w => let! c := bin "==" v w in match c with VBool b => XOk b | _ => XStuck end) ws in
                          XOk (VBool (existsb (fun b => b) bs))
  | _, _ => XStuck
  end.
Definition clo_pat (ps : list pat) : pat := match ps with [x] => x | _ => PTup ps end.

Context (owner : string).
Definition path_const (p : list string) : X val :=
  match assoc (path_name (match p with [t; m] => [resolve owner t; m] | _ => p end)) (g_consts g), p with
  | Some v, _ => XOk v
  | None, [t; m] => if (m =? "MAX")%string then let! k := of_opt (ity_of t) in XOk (VInt k (modulus k - 1)) else XStuck
  | None, _ => XStuck
  end.
(** A call by path: functions of [core], of the program, tuple structs. *)
Definition call (p : list string) (targs : list ty) (vs : list val) (r : env) : X (val * env) :=
  let! ds := xmap (passed r) vs in
  match core_fn p targs ds with
  | Some m => let! v := m in XOk (v, r)
  | None =>
      match p with
      | [x] => match find_fn x with Some _ => user_call x vs r | None => XOk (VStruct (resolve owner x) (combine ["0"; "1"] ds), r) end
      | [t; m] => user_call (resolve owner t ++ "::" ++ m) vs r
      | _ => XStuck
      end
  end.
Fixpoint eval (e : expr) (r : env) {struct e} : X (val * env) :=
  let evals := fix evals (l : list expr) (r : env) : X (list val * env) :=
    match l with
    | [] => XOk ([], r)
    | e :: l => let! (v, r) := eval e r in let! (vs, r) := evals l r in XOk (v :: vs, r)
    end in
  match e with
  | ENum n s => XOk (VInt (match ity_of s with Some k => k | None => Any end) n, r)
  | EStr _ => XOk (VUnit, r)
  | EPath p targs =>
      match p with
      | [x] => match assoc x r with
               | Some v => XOk (v, r)
               | None => match assoc x (g_consts g) with
                         | Some v => XOk (v, r)
                         | None => if (x =? "None")%string then XOk (VCon "None" [], r) else XOk (VUnit, r)     (* PhantomData, InvalidLength *)
                         end
               end
      | _ => let! v := path_const p in XOk (v, r)
      end
  | EFld e0 f =>
      if is_place r e0 then let! (x, p, r) := place e0 r in let! v := rd r x (p ++ [PF f]) in XOk (v, r)
      else let! (v, r) := eval e0 r in let! v := proj_get v [PF f] in XOk (v, r)
  | EIdx e0 i =>
      if is_place r e0
      then let! (x, p, r) := place e0 r in let! v := rd r x p in let! (i, r) := eval i r in let! s := step_of v i in
           let! v := proj_get v [s] in XOk (v, r)
      else let! (v, r) := eval e0 r in let! (i, r) := eval i r in let! s := step_of v i in let! v := proj_get v [s] in XOk (v, r)
  | ERng a b =>
      let! (ta, a, r) := match a with Some a => let! (v, r) := eval a r in match v with VInt t n => XOk (t, n, r) | _ => XStuck end | None => XOk (Any, 0, r) end in
      match b with
      | Some b => let! (v, r) := eval b r in match v with VInt t n => let! t := of_opt (unify ta t) in XOk (VRng t a n, r) | _ => XStuck end
      | None => XOk (VFrom a, r)
      end
  | ENot e => let! (v, r) := eval e r in match v with VBool b => XOk (VBool (negb b), r) | _ => XStuck end
  | EDeref e => let! (v, r) := eval e r in let! v := deref r v in XOk (v, r)
  | ERef m e => if is_place r e then let! (x, p, r) := place e r in let! _ := rd r x p in XOk (VRef x p, r) else eval e r
  | EBin op a b =>
      let! (v, r) := eval a r in let! v := deref r v in
      if (op =? "&&")%string then match v with VBool true => eval b r | VBool false => XOk (v, r) | _ => XStuck end
      else if (op =? "||")%string then match v with VBool false => eval b r | VBool true => XOk (v, r) | _ => XStuck end
      else let! (w, r) := eval b r in let! w := deref r w in let! u := bin op v w in XOk (u, r)
  | EAsn op a b =>
      let! (w, r) := eval b r in let! w := deref r w in
      let! (x, p, r) := place a r in
      let! w := if (op =? "")%string then XOk w else let! v := rd r x p in bin op v w in
      let! r := wr r x p w in XOk (VUnit, r)
  | ECast e t => let! (v, r) := eval e r in let! v := deref r v in let! k := of_opt (ty_ity t) in let! v := cast k v in XOk (v, r)
  | ECall p targs args =>
      match args with
      | [EClo ps body] =>
          (* [array::from_fn]; the length is inferred from the type wanted, and given as a constant *)
          if (path_name p =? "array::from_fn")%string then
          let! n := of_opt (assoc "array::from_fn" (g_consts g)) in
          match n with
          | VInt _ n =>
              let! l := xmap (fun i => let! r1 := bind_pat (clo_pat ps) (VInt Usz i) r in let! (v, _) := eval body r1 in
                                       match v with VInt t n => XOk (t, n) | _ => XStuck end) (numbers 0 n) in
              XOk (VArr (match l with (t, _) :: _ => t | [] => Any end) (map snd l), r)
          | _ => XStuck
          end
          else XStuck
      | _ => let! (vs, r) := evals args r in call p targs vs r
      end
  | EMeth e0 m args =>
      match args with
      | [EClo ps body] =>
          if (m =? "for_each")%string
          then let! (v, r) := eval e0 r in let! l := items v in
               let! r := loop (fun v r => let! r1 := bind_pat (clo_pat ps) v r in let! (_, r2) := eval body r1 in XOk (pop r r2)) l r in
               XOk (VUnit, r)
          else XStuck
      | _ =>
          if existsb (String.eqb m) mut_meths
          then let! (vs, r) := evals args r in let! vs := xmap (passed r) vs in
               let! (x, p, r) := place e0 r in let! v := rd r x p in
               let! (res, new) := place_meth m x p v vs in
               match new with
               | None => XOk (res, r)
               | Some w => let! r := wr r x p w in XOk (res, r)
               end
          else
            let! (v, r) := eval e0 r in
            let! v0 := deref r v in
            match v0 with
            | VStruct s _ =>
                let! (vs, r) := evals args r in
                let! self := if is_place r e0 then let! (x, p, _) := place e0 r in XOk (VRef x p) else XOk v0 in
                user_call (s ++ "::" ++ m) (self :: reborrow r args vs) r
            | _ => let! (vs, r) := evals args r in
                   let! vs := xmap (if (m =? "zip")%string then zipped r else passed r) vs in let! u := value_meth m v0 vs in XOk (u, r)
            end
      end
  | EMac m args =>
      let! (vs, r) := match args with [a; EBin _ (EBin _ x y) z] => evals [a; x; y; z] r | _ => evals args r end in
      let! vs := xmap (passed r) vs in let! v := mac m vs in XOk (v, r)
  | EIf c t f =>
      let! (v, r) := eval c r in
      match v with
      | VBool true => eval t r
      | VBool false => match f with Some f => eval f r | None => XOk (VUnit, r) end
      | _ => XStuck
      end
  | EFor x e body =>
      let! (v, r) := eval e r in let! v := deref r v in let! l := items v in
      let! r := loop (fun v r => let! r1 := bind_pat x v r in let! (_, r2) := eval body r1 in XOk (pop r r2)) l r in
      XOk (VUnit, r)
  | EBlk ss tail =>
      let! r1 := (fix go (l : list stmt) (r : env) : X env := match l with [] => XOk r | s :: l => let! r := exec s r in go l r end) ss r in
      match tail with
      | Some e => let! (v, r2) := eval e r1 in XOk (v, pop r r2)
      | None => XOk (VUnit, pop r r1)
      end
  | EArr l => let! (vs, r) := evals l r in
              let! ns := xmap (fun v => match v with VInt t n => XOk (t, n) | _ => XStuck end) vs in
              XOk (VArr (fold_right (fun x t => meet (fst x) t) Any ns) (map snd ns), r)
  | ERep e n => let! (v, r) := eval e r in let! (w, r) := eval n r in
                match v, w with VInt t a, VInt _ k => XOk (VArr t (repeat a (N.to_nat k)), r) | _, _ => XStuck end
  | ETup l => let! (vs, r) := evals l r in XOk (VTup vs, r)
  | EStruct s fs =>
      let s := resolve owner s in
      let! ts := of_opt (assoc s (g_structs g)) in
      let! (vs, r) := (fix go (fs : list (string * expr)) (r : env) : X (list (string * val) * env) :=
                         match fs with
                         | [] => XOk ([], r)
                         | (x, e) :: fs => let! (v, r) := eval e r in let! (vs, r) := go fs r in
                                           XOk ((x, match assoc x ts with Some t => coerce t v | None => v end) :: vs, r)
                         end) fs r in
      XOk (VStruct s vs, r)
  | EClo _ _ => XStuck
  | ERet e => match e with Some e => let! (v, r) := eval e r in XRet v r | None => XRet VUnit r end
  end
with place (e : expr) (r : env) {struct e} : X (string * list proj * env) :=
  match e with
  | EPath [x] _ => match assoc x r with
                   | Some (VRef y p) => XOk (y, p, r)
                   | Some _ => XOk (x, [], r)
                   | None => XStuck
                   end
  | EFld e f => let! (x, p, r) := place e r in XOk (x, p ++ [PF f], r)
  | EDeref e => match e with
                | EMeth _ _ _ => let! (v, r) := eval e r in match v with VRef x p => XOk (x, p, r) | _ => XStuck end
                | _ => place e r
                end
  | EIdx e i =>
      let! (x, p, r) := place e r in
      let! v := rd r x p in
      let! (i, r) := eval i r in
      let! s := step_of v i in XOk (x, p ++ [s], r)
  | _ => XStuck
  end
with exec (s : stmt) (r : env) {struct s} : X env :=
  match s with
  | SLet x t e => let! (v, r) := eval e r in bind_pat x (match t with Some t => coerce t v | None => v end) r
  | SExpr e => let! (_, r) := eval e r in XOk r
  | SFn _ _ _ _ => XOk r
  end.
End Sem.

(** A block's statements, one after the other. *)
Definition execs (g : genv) (prog : list fn) (callf : string -> list val -> X (val * list val)) (owner : string) : list stmt -> env -> X env :=
  fix go (l : list stmt) (r : env) : X env :=
    match l with [] => XOk r | s :: l => let! r := exec g prog callf owner s r in go l r end.

(** ** Programs *)
(** A call: parameters bound, body run, the result and the parameters' final values. *)
Definition bind_args (g : genv) (f : fn) (vs : list val) : env :=
  match f_self f, vs with
  | NoSelf, _ => map (fun x => (fst (fst x), coerce g (snd (fst x)) (snd x))) (combine (f_params f) vs)
  | _, v :: vs => ("self", v) :: map (fun x => (fst (fst x), coerce g (snd (fst x)) (snd x))) (combine (f_params f) vs)
  | _, [] => []
  end.
Definition finish (g : genv) (f : fn) (n : nat) (v : val) (r : env) : X (val * list val) :=
  XOk (match f_ret f with Some t => coerce g t v | None => v end, map snd (skipn (length r - n) r)).
Definition run_body (g : genv) (prog : list fn) (callf : string -> list val -> X (val * list val)) (f : fn) (vs : list val) : X (val * list val) :=
  let r := bind_args g f vs in
  match flat (eval g prog callf (f_owner f) (f_body f) r) with
  | XOk (v, r') => flat (let! v := deref r' v in finish g f (length r) v r')
  | XRet v r' => finish g f (length r) v r'
  | XPanic => XPanic
  | _ => XStuck
  end.
(** Calls nested to depth [d]; the code is not recursive. *)
Fixpoint run_fn (g : genv) (prog : list fn) (d : nat) (k : string) (vs : list val) : X (val * list val) :=
  match d with
  | O => XStuck
  | S d => match find_fn prog k with
           | Some f => run_body g prog (run_fn g prog d) f vs
           | None => XStuck
           end
  end.
(** The functions of a parsed text, those nested in function bodies included. *)
Definition nested (f : fn) : list fn :=
  match f_body f with
  | EBlk ss _ => flat_map (fun s => match s with SFn n ps t b => [Fn "" n NoSelf ps t b] | _ => [] end) ss
  | _ => []
  end.
Definition fns (l : list item) : list fn := flat_map (fun i => match i with IFn f => f :: nested f | _ => [] end) l.
Definition structs (l : list item) : list (string * list (string * ty)) := flat_map (fun i => match i with IStruct s fs => [(s, fs)] | _ => [] end) l.
(** Constants in the order of the text; each may use the ones before. *)
Definition genv0 (ck : bool) (usz : N) (tys : list (string * ity)) (alias : list (string * string)) (st : list (string * list (string * ty))) (cs : list (string * val)) : genv :=
  {| g_ck := ck; g_usz := usz; g_structs := st; g_consts := cs; g_tys := tys; g_alias := alias; g_defer := false |}.
Fixpoint consts (usz : N) (l : list item) (cs : list (string * val)) : list (string * val) :=
  match l with
  | [] => cs
  | IConst x t e :: l =>
      let g := genv0 true usz [] [] [] cs in
      match eval g [] (fun _ _ => XStuck) "" e [] with
      | XOk (v, _) => consts usz l ((x, coerce g t v) :: cs)
      | _ => consts usz l cs
      end
  | _ :: l => consts usz l cs
  end.
