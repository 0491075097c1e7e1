(** Interface between [cipher]'s closures and a backend: environment contract for
    [cipher::StreamCipherBackend] / [StreamCipherClosure] (cipher 0.5.2, external). *)
From Verif Require Export Word Res.

(** What a closure may ask of a backend ([gen_ks_block], [gen_par_ks_blocks],
    [gen_tail_blocks] with [n] blocks). *)
Inductive req := One | Par | Tail (n : nat).

(** A backend over a register-state type [B]: outputs are the bytes written. *)
Record backend (B : Type) := {
  par_blocks : nat;
  gen_one : B -> list N * B;
  gen_par : B -> list N * B;
  gen_tail : nat -> B -> Res (list N * B)
}.
Arguments par_blocks {B}. Arguments gen_one {B}. Arguments gen_par {B}. Arguments gen_tail {B}.

Fixpoint gen_ones {B} (g : B -> list N * B) (n : nat) (b : B) : list N * B :=
  match n with
  | O => ([], b)
  | S n' => let (o, b1) := g b in let (o', b2) := gen_ones g n' b1 in (o ++ o', b2)
  end.

(** Default [StreamCipherBackend::gen_tail_blocks]: [assert!(blocks.len() < Par)], one by one. *)
Definition default_tail {B} (par : nat) (g : B -> list N * B) (n : nat) (b : B) : Res (list N * B) :=
  do _ <- assert_ (n <? par)%nat; Ok (gen_ones g n b).

(** Run an arbitrary closure, i.e. an arbitrary list of requests. *)
Fixpoint run_reqs {B} (be : backend B) (l : list req) (b : B) : Res (list N * B) :=
  match l with
  | [] => Ok ([], b)
  | r :: l' =>
      do (o, b1) <- match r with
                   | One => Ok (gen_one be b)
                   | Par => Ok (gen_par be b)
                   | Tail n => gen_tail be n b
                   end;
      do (o', b2) <- run_reqs be l' b1; Ok (o ++ o', b2)
  end.

(** Number of blocks a request list produces. *)
Definition req_blocks (par : nat) (r : req) : nat :=
  match r with One => 1 | Par => par | Tail n => n end.
Definition reqs_blocks (par : nat) (l : list req) : nat :=
  fold_right (fun r acc => (req_blocks par r + acc)%nat) 0%nat l.
(** Requests respecting the contract of [gen_tail_blocks]: fewer than [par] blocks. *)
Definition req_ok (par : nat) (r : req) : bool :=
  match r with Tail n => (n <? par)%nat | _ => true end.

(** The requests [cipher]'s [write/apply_keystream_blocks] closures make for [n]
    blocks: whole parallel chunks then the tail; one by one when [par = 1]. *)
Definition closure_reqs (par n : nat) : list req :=
  if (1 <? par)%nat then repeat Par (n / par) ++ [Tail (n mod par)] else repeat One n.
