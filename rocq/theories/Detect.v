(** CPU feature detection at run time, and ChaCha ciphers whose backend changes while they
    are in use.

    [cpufeatures::new!] [chacha20/src/lib.rs:103-106] makes one atomic byte per feature set,
    at first "unknown"; [init()], called by [new_internal] [:176], [:178], detects the feature if the
    byte is unknown and stores the result; [InitToken::get()], called by
    [process_with_backend] [:262-283] and [generate] [chacha20/src/rng.rs:66-77], reads the byte.  The crate
    [cpufeatures] 0.3 is outside the repository (environment contract); its loads and
    stores are relaxed.

    Simplification: all threads see one value of a byte at a time (for a single atomic byte
    with only the stores below, reads after a completed [init] that they are ordered with cannot
    see less). *)
From Verif Require Export Word Res.
From Verif Require Import SpecStream ChaChaCore ChaChaDispatch XChaCha CipherWrapper Salsa Rabbit Hc256 Rc4 Ciphers.

(** ** The shared bytes *)
Inductive feature := FAvx512 | FAvx2 | FSse2.
Definition feature_eqb (a b : feature) : bool :=
  match a, b with FAvx512, FAvx512 | FAvx2, FAvx2 | FSse2, FSse2 => true | _, _ => false end.
Definition UNKNOWN : N := 255.
Definition cells : Type := feature -> N.
Definition set_cell (m : cells) (f : feature) (x : N) : cells := fun g => if feature_eqb f g then x else m g.

(** What a thread does with the bytes; [Stored f x] is the second half of an [Init f] that
    has found the byte unknown and detected [x]. *)
Inductive act := Init (f : feature) | Stored (f : feature) (x : bool) | Get (f : feature).
(** What a thread is told: [init] returned its token; [get] answered. *)
Inductive event := Token (f : feature) | Answer (f : feature) (x : bool).

(** One atomic step of a thread with work [l]; [detect] is what CPUID says where it runs. *)
Definition t_step (detect : feature -> bool) (m : cells) (l : list act) : cells * list act * list event :=
  match l with
  | [] => (m, [], [])
  | Init f :: l' => if m f =? UNKNOWN then (m, Stored f (detect f) :: l', [])       (* load, CPUID *)
                    else (m, l', [Token f])
  | Stored f x :: l' => (set_cell m f (if x then 1 else 0), l', [Token f])          (* store *)
  | Get f :: l' => (m, l', [Answer f (m f =? 1)])                                   (* load *)
  end.
(** Any number of threads, any schedule: at each step thread [t] of the schedule moves, on a
    CPU where detection gives [detect].  The events of all threads in order. *)
Definition threads : Type := nat -> list act.
Fixpoint t_run (sched : list (nat * (feature -> bool))) (m : cells) (ts : threads) : list event :=
  match sched with
  | [] => []
  | (t, detect) :: s' =>
      match t_step detect m (ts t) with
      | (m', l', ev) => ev ++ t_run s' m' (fun u => if (u =? t)%nat then l' else ts u)
      end
  end.
(** [new_internal]'s and [process_with_backend]'s part in this, with [chacha20_avx512]. *)
Definition new_acts : list act := [Init FAvx512; Init FAvx2; Init FSse2].           (* lib.rs:176 *)
Definition use_acts : list act := [Get FAvx512; Get FAvx2; Get FSse2].              (* lib.rs:262-283 *)

(** ** Ciphers used on changing CPUs *)
(** Build and CPU of the [i]-th call of [process_with_backend]. *)
Definition choice : Type := nat -> config * cpu.
(** [chacha_score] with a count of these calls beside the core. *)
Definition chacha_score_m (o : choice) (usz : N) (v : variant) (n : nat) : score (nat * list N) :=
  {| sc_bs := 64;
     sc_gen := fun k (s : nat * list N) => let (i, st) := s in
                          do (b, st') <- core_write (fst (o i)) (snd (o i)) v n k st; Ok (b, (S i, st'));
     sc_rem := fun (s : nat * list N) => remaining_blocks v usz (get_block_pos v (snd s)) |}.
Definition chacha_seek_m (v : variant) : sseek (nat * list N) :=
  {| sk_mod := sk_mod (chacha_seek v);
     sk_get := fun (s : nat * list N) => get_block_pos v (snd s);
     sk_set := fun (s : nat * list N) p => (fst s, set_block_pos v (snd s) p) |}.
Definition at_start {A} (m : Res A) : Res (nat * A) := do x <- m; Ok (0%nat, x).
(** [Ciphers.cipher_run]; only [chacha20] selects among backends. *)
Definition cipher_run_m (o : choice) (e : env) (c : cipher) (h : list op) : Res (list ret) :=
  match c with
  | CChaCha v n key iv => run_core (chacha_score_m o (e_usz e) v n) (Some (chacha_seek_m v)) (at_start (new_internal v key iv)) h
  | CXChaCha n key iv => run_core (chacha_score_m o (e_usz e) Ietf n) (Some (chacha_seek_m Ietf)) (at_start (xchacha_new n key iv)) h
  | _ => cipher_run e c h
  end.
