(** Ciphers working on buffers in memory: in place ([apply_keystream]), from one buffer to
    another ([apply_keystream_b2b], [apply_keystream_inout]) and filling a buffer
    ([write_keystream]).

    [CipherWrapper.v] describes an application as "produce the keystream, then XOR it with
    the message".  The code never holds the whole keystream: [inout::InOutBuf] carries a
    pointer to the input and one to the output, which are equal or to disjoint buffers; the
    cached head is XORed first, then the closure given to [process_with_backend] XORs what
    the backend generates piece by piece (some parallel blocks, then single ones), then the
    tail ([cipher] 0.5.2 [StreamCipherCoreWrapper::unchecked_apply_keystream_inout], environment
    contract); RC4 XORs byte by byte ([rc4/src/lib.rs:90-95]).  Later pieces of the input are
    read after earlier pieces of the output have been written.

    Simplifications: how the closure cuts the blocks into pieces is a parameter [cuts] (any
    list of lengths for every number of bytes), so that all the backends' parallel widths are
    instances; a piece goes right after the previous one ([InOutBuf::split_at]; that the
    lengths add up to that of the buffer, which [xor_in2out] asserts, is a consequence
    of C88); memory is one list of bytes and buffers are offsets in it. *)
From Verif Require Export Word Res.
From Verif Require Import SpecStream ChaChaCore ChaChaDispatch XChaCha CipherWrapper Salsa Rabbit Hc256 Rc4 Ciphers.

Definition byte (mem : list N) (a : nat) : N := nth a mem 0.
Definition set_byte (mem : list N) (a : nat) (b : N) : list N := firstn a mem ++ b :: skipn (S a) mem.

(** [InOutBuf::xor_in2out]: [*out[k] = *in[k] ^ data[k]] for each [k] in turn. *)
Fixpoint xor_in2out (mem : list N) (i o : nat) (ks : list N) : list N :=
  match ks with
  | [] => mem
  | k :: ks' => xor_in2out (set_byte mem o (N.lxor (byte mem i) k)) (S i) (S o) ks'
  end.
(** [copy_from_slice] of generated keystream into the buffer at [o]. *)
Fixpoint store (mem : list N) (o : nat) (ks : list N) : list N :=
  match ks with
  | [] => mem
  | k :: ks' => store (set_byte mem o k) (S o) ks'
  end.

(** The pieces in which keystream arrives; the last one is what is left. *)
Fixpoint pieces (cuts : list nat) (l : list N) : list (list N) :=
  match cuts with
  | [] => [l]
  | n :: cuts' => firstn n l :: pieces cuts' (skipn n l)
  end.
Fixpoint xor_pieces (mem : list N) (i o : nat) (ps : list (list N)) : list N :=
  match ps with
  | [] => mem
  | p :: ps' => xor_pieces (xor_in2out mem i o p) (i + length p) (o + length p) ps'
  end.

(** Calls on buffers given by their offsets and lengths. *)
Inductive mop :=
| MApply (o len : nat)                   (* try_apply_keystream: in place *)
| MB2b (i ilen o olen : nat)             (* apply_keystream_b2b *)
| MWrite (o len : nat)                   (* try_write_keystream *)
| MSeek (p : N)
| MPos (tmax : N).
Inductive mret := MDone | MAt (p : N) | MErr.

Section Wrapper.
  Context {S : Type} (C : score S) (cuts : nat -> list nat).
  (** [StreamCipherCoreWrapper::unchecked_apply_keystream_inout] *)
  Definition m_apply (w : wrapper S) (mem : list N) (i o len : nat) : Res (list N * wrapper S) :=
    let (head, cur) := read_cached C w len in
    let mem := xor_in2out mem i o head in
    let n := length head in
    let rest := (len - n)%nat in
    do (body, st) <- sc_gen C (rest / sc_bs C) (w_core w);
    let mem := xor_pieces mem (i + n) (o + n) (pieces (cuts (length body)) body) in
    let n := (n + length body)%nat in
    do (tail, w') <- write_block C st (w_buf w) cur (rest mod sc_bs C);
    Ok (xor_in2out mem (i + n) (o + n) tail, w').
  (** [unchecked_write_keystream] *)
  Definition m_write (w : wrapper S) (mem : list N) (o len : nat) : Res (list N * wrapper S) :=
    let (head, cur) := read_cached C w len in
    let mem := store mem o head in
    let n := length head in
    let rest := (len - n)%nat in
    do (body, st) <- sc_gen C (rest / sc_bs C) (w_core w);
    let mem := store mem (o + n) body in
    let n := (n + length body)%nat in
    do (tail, w') <- write_block C st (w_buf w) cur (rest mod sc_bs C);
    Ok (store mem (o + n) tail, w').
  (** The checked entry points, as in [CipherWrapper.step]. *)
  Definition m_step (K : option (sseek S)) (w : wrapper S) (mem : list N) (x : mop)
    : Res (mret * wrapper S * list N) :=
    let inout i o len :=
      if check_remaining C w len then do (mem', w') <- m_apply w mem i o len; Ok (MDone, w', mem')
      else Ok (MErr, w, mem) in
    match x with
    | MApply o len => inout o o len
    | MB2b i ilen o olen => if (ilen =? olen)%nat then inout i o ilen else Ok (MErr, w, mem)
    | MWrite o len =>
        if check_remaining C w len then do (mem', w') <- m_write w mem o len; Ok (MDone, w', mem')
        else Ok (MErr, w, mem)
    | MSeek p => match K with
                 | None => Ok (MErr, w, mem)
                 | Some K => do r <- try_seek C K w p;
                             match r with Some w' => Ok (MDone, w', mem) | None => Ok (MErr, w, mem) end
                 end
    | MPos t => match K with
                | None => Ok (MErr, w, mem)
                | Some K => match try_current_pos C K w t with
                            | Some p => Ok (MAt p, w, mem) | None => Ok (MErr, w, mem) end
                end
    end.
End Wrapper.

(** [rc4/src/lib.rs:90-95] *)
Fixpoint m_rc4_apply (s : rc4) (mem : list N) (i o len : nat) : Res (list N * rc4) :=
  match len with
  | O => Ok (mem, s)
  | S len' => do (ks, s1) <- prga s;
              m_rc4_apply s1 (set_byte mem o (N.lxor ks (byte mem i))) (S i) (S o) len'
  end.
(** [rc4/src/lib.rs:98-100] *)
Fixpoint m_rc4_write (s : rc4) (mem : list N) (o len : nat) : Res (list N * rc4) :=
  match len with
  | O => Ok (mem, s)
  | S len' => do (ks, s1) <- prga s; m_rc4_write s1 (set_byte mem o ks) (S o) len'
  end.
Definition m_rc4_step (s : rc4) (mem : list N) (x : mop) : Res (mret * rc4 * list N) :=
  let lift len m := if rc4_check_remaining s len then do (mem', s') <- m; Ok (MDone, s', mem') else Ok (MErr, s, mem) in
  match x with
  | MApply o len => lift len (m_rc4_apply s mem o o len)
  | MB2b i ilen o olen => if (ilen =? olen)%nat then lift ilen (m_rc4_apply s mem i o ilen) else Ok (MErr, s, mem)
  | MWrite o len => lift len (m_rc4_write s mem o len)
  | MSeek _ | MPos _ => Ok (MErr, s, mem)
  end.

(** A history of calls on one memory: the answers and the memory left. *)
Fixpoint m_run {W} (stp : W -> list N -> mop -> Res (mret * W * list N)) (w : W) (mem : list N) (h : list mop)
  : Res (list mret * list N) :=
  match h with
  | [] => Ok ([], mem)
  | x :: h' => do (rw, mem1) <- stp w mem x;
               let (r, w1) := rw in
               do (rs, mem2) <- m_run stp w1 mem1 h'; Ok (r :: rs, mem2)
  end.
Definition m_core {S} (C : score S) (K : option (sseek S)) cuts (m : Res S) mem h : Res (list mret * list N) :=
  do st <- m; m_run (m_step C cuts K) (w_new C st) mem h.
(** Every cipher of the repository, as in [Ciphers.cipher_run]. *)
Definition cipher_mrun (e : env) (c : cipher) (cuts : nat -> list nat) (mem : list N) (h : list mop) : Res (list mret * list N) :=
  match c with
  | CChaCha v n key iv => m_core (chacha_score e v n) (Some (chacha_seek v)) cuts (new_internal v key iv) mem h
  | CXChaCha n key iv => m_core (chacha_score e Ietf n) (Some (chacha_seek Ietf)) cuts (xchacha_new n key iv) mem h
  | CSalsa n key iv => m_core (salsa_score e n) (Some salsa_seek) cuts (Ok (salsa_new key iv)) mem h
  | CXSalsa n key iv => m_core (salsa_score e n) (Some salsa_seek) cuts (Ok (xsalsa_new n key iv)) mem h
  | CRabbit key iv => m_core (rabbit_score e) None cuts (rabbit_new (e_ck e) key iv) mem h
  | CRabbitKeyOnly key => m_core (rabbit_score e) None cuts (rabbit_key_only (e_ck e) key) mem h
  | CHc256 key iv => m_core (hc_score e) None cuts (hc_new (e_ck e) (2 ^ e_usz e) key iv) mem h
  | CRc4 key =>
      do r <- new_from_slice key;
      match r with
      | None => Panic                    (* [InvalidLength]; excluded by [cipher_ok] *)
      | Some s => m_run m_rc4_step s mem h
      end
  end.
