(** Specification of the ChaCha generators as a position in one of 2^64 streams of 2^68
    words.  Nothing here refers to the Rust code or to the model. *)
From Coq Require Import Arith NArith List Bool.
From Verif Require Import SpecChaCha.
Import ListNotations.
Open Scope N_scope.

(** [n] little-endian bytes of [x]. *)
Definition rg_le (n : nat) (x : N) : list N := map (fun i => x / 2 ^ (8 * N.of_nat i) mod 2 ^ 8) (seq 0 n).
Definition rg_int (l : list N) : N := fold_right (fun b acc => b + 2 ^ 8 * acc) 0 l.

(** Word [w] of stream [stream] of [seed]: word [w mod 16] of djb's ChaCha block with
    64-bit counter [w / 16] and the stream number as nonce. *)
Definition rg_word (dr : nat) (seed : list N) (stream w : N) : N :=
  nth (N.to_nat (w mod 16)) (sp_core dr (sp_djb_state seed ((w / 16) mod 2 ^ 64) (rg_le 8 stream))) 0.

Record rg := { g_seed : list N; g_stream : N; g_pos : N }.
Definition rg_move (g : rg) (p : N) : rg := {| g_seed := g_seed g; g_stream := g_stream g; g_pos := p mod 2 ^ 68 |}.
(** [k] words from the current position. *)
Definition rg_take (dr : nat) (g : rg) (k : nat) : list N :=
  map (fun i => rg_word dr (g_seed g) (g_stream g) (g_pos g + N.of_nat i)) (seq 0 k).

Inductive rop :=
| NextU32 | NextU64 | Fill (n : nat)
| GetWordPos | SetWordPos (p : N)
| GetBlockPos | SetBlockPos (b : N)
| GetStream | SetStream (s : N)
| GetSeed | Serialize.
Inductive rret :=
| Num (x : N) | Buf (l : list N) | Unit.

Definition rg_step (dr : nat) (g : rg) (o : rop) : rret * rg :=
  match o with
  | NextU32 => (Num (nth 0 (rg_take dr g 1) 0), rg_move g (g_pos g + 1))
  | NextU64 => (Num (nth 0 (rg_take dr g 2) 0 + 2 ^ 32 * nth 1 (rg_take dr g 2) 0), rg_move g (g_pos g + 2))
  | Fill n => let k := ((n + 3) / 4)%nat in
              (Buf (firstn n (flat_map (rg_le 4) (rg_take dr g k))), rg_move g (g_pos g + N.of_nat k))
  | GetWordPos => (Num (g_pos g), g)
  | SetWordPos p => (Unit, rg_move g p)
  | GetBlockPos => (Num (g_pos g / 16), g)
  | SetBlockPos b => (Unit, rg_move g (16 * b))
  | GetStream => (Num (g_stream g), g)
  | SetStream s => (Unit, {| g_seed := g_seed g; g_stream := s; g_pos := 0 |})
  | GetSeed => (Buf (g_seed g), g)
  | Serialize => (Buf (g_seed g ++ rg_le 8 (g_stream g) ++ rg_le 9 (g_pos g)), g)
  end.
Fixpoint rg_run (dr : nat) (g : rg) (h : list rop) : list rret * rg :=
  match h with
  | [] => ([], g)
  | o :: h' => let (r, g1) := rg_step dr g o in let (rs, g2) := rg_run dr g1 h' in (r :: rs, g2)
  end.
