(** Caught panics: every call is made under [catch_unwind] (or behind a mutex whose poisoning
    is ignored), and the object is used again afterwards.  The wrapper is the packed one of
    [Packed.v], so that a cursor out of range is undefined behaviour; a panic is an outcome
    together with the memory as the unwinding leaves it.

    The order of writes is that of the code: [ReadBuffer::read_cached] moves the cursor first;
    whole blocks come from the core; [write_block] generates over the buffer and then writes
    the cursor; [try_seek] sets the counter, resets the buffer, then generates.

    Simplification: what a panicking call leaves in the caller's own buffer is not modelled
    (C87 shows that the calls with such a buffer do not panic inside). *)
From Verif Require Export Packed.
From Verif Require Import SpecStream ChaChaCore ChaChaDispatch XChaCha CipherWrapper Salsa Rabbit Hc256 Rc4 Ciphers BlockRng SpecRng ChaChaRng.

Inductive got (A : Type) := Ret (r : A) | Caught | UB.
Arguments Ret {A} r. Arguments Caught {A}. Arguments UB {A}.

Section Wrapper.
  Context {S : Type} (C : score S).
  (** [torn st buf]: the block buffer after a panic of the core's [gen_ks_block] called on
      [buf] in state [st]. *)
  Context (torn : S -> list N -> list N).
  Let bs := sc_bs C.
  (** The core after a panic among [k] blocks: the blocks before it have been made, and the
      panicking one has not moved the counter ([salsa20/src/backends/soft.rs:24]: the addition
      panics before [set_block_pos] is entered). *)
  Fixpoint left (k : nat) (st : S) : S :=
    match k with
    | O => st
    | Datatypes.S k' => match sc_gen C 1 st with Ok (_, st') => left k' st' | Panic => st end
    end.
  Definition u_write_block (st : S) (buf : list N) (read_len : nat) : out (list N) * packed S :=
    if (read_len =? 0)%nat then (Fine [], (st, buf))
    else match assert_ (read_len <? bs)%nat with
         | Panic => (Panics, (st, buf))
         | Ok _ => match sc_gen C 1 st with
                   | Ok (blk, st') => (Fine (firstn read_len blk), (st', set_pos blk read_len))
                   | Panic => (Panics, (st, torn st buf))
                   end
         end.
  Definition u_write (p : packed S) (len : nat) : out (list N) * packed S :=
    match p_read_cached C (snd p) len with
    | Fine (head, buf) =>
        let rest := (len - length head)%nat in
        match sc_gen C (rest / bs) (fst p) with
        | Panic => (Panics, (left (rest / bs) (fst p), buf))
        | Ok (body, st) =>
            let (t, p') := u_write_block st buf (rest mod bs) in
            (match t with Fine tail => Fine (head ++ body ++ tail) | Panics => Panics | Undef => Undef end, p')
        end
    | Panics => (Panics, p)
    | Undef => (Undef, p)
    end.
  Definition u_guarded (p : packed S) (len : nat) (f : list N -> list N) : out ret * packed S :=
    match p_check C p len with
    | Fine true => let (k, p') := u_write p len in (match k with Fine k => Fine (Bytes (f k)) | Panics => Panics | Undef => Undef end, p')
    | Fine false => (Fine Err, p)
    | Panics => (Panics, p)
    | Undef => (Undef, p)
    end.
  Definition u_seek (K : sseek S) (p : packed S) (q : N) : out ret * packed S :=
    let byte := N.to_nat (q mod N.of_nat bs) in
    let block := q / N.of_nat bs in
    if block <? sk_mod K
    then let (t, p') := u_write_block (sk_set K (fst p) block) (set_pos (snd p) bs) byte in
         (match t with Fine _ => Fine Done | Panics => Panics | Undef => Undef end, p')
    else (Fine Err, p).
  Definition u_step (K : option (sseek S)) (p : packed S) (o : op) : out ret * packed S :=
    match o with
    | Apply d => u_guarded p (length d) (xorb_list d)
    | ApplyB2b d m => if (length d =? m)%nat then u_guarded p (length d) (xorb_list d) else (Fine Err, p)
    | Write n => u_guarded p n (fun k => k)
    | Seek q => match K with None => (Fine Err, p) | Some K => u_seek K p q end
    | CurPos t => match K with
                  | None => (Fine Err, p)
                  | Some K => (match p_current C K p t with
                               | Fine (Some q) => Fine (Pos q) | Fine None => Fine Err | Panics => Panics | Undef => Undef
                               end, p)
                  end
    end.
  (** [(true, o)]: the unwrapping form of the call, as in [Panics.v]: it panics on an error, after
      the [try_] form has returned. *)
  Definition is_err (r : ret) : bool := match r with Err => true | _ => false end.
  Definition seen (f : bool) (r : out ret) : got ret :=
    match r with Fine r => if f && is_err r then Caught else Ret r | Panics => Caught | Undef => UB end.
  Fixpoint u_run (K : option (sseek S)) (p : packed S) (h : list (bool * op)) : list (got ret) :=
    match h with
    | [] => []
    | (f, o) :: h' => let (r, p') := u_step K p o in
                      match seen f r with UB => [UB] | x => x :: u_run K p' h' end
    end.
End Wrapper.

(** [salsa20/src/backends/soft.rs:21-29]: the counter is moved before the block is written, so a
    panic leaves the buffer as it was.  The other cores never panic ([generate] of [chacha20]
    wraps; Rabbit and HC-256: C39, C41). *)
Definition untouched {S} (_ : S) (buf : list N) : list N := buf.
Definition u_core {S} (C : score S) (K : option (sseek S)) (m : Res S) (h : list (bool * op)) : Res (list (got ret)) :=
  do st <- m; Ok (u_run C untouched K (p_new C st) h).
(** RC4 has no buffer and its calls cannot panic inside (C43). *)
Fixpoint u_rc4 (s : rc4) (h : list (bool * op)) : list (got ret) :=
  match h with
  | [] => []
  | (f, o) :: h' => match rc4_step s o with
                    | Ok (r, s') => seen f (Fine r) :: u_rc4 s' h'
                    | Panic => [UB]
                    end
  end.
(** Construct a cipher, make the calls, catching panics. *)
Definition caught_run (e : env) (c : cipher) (h : list (bool * op)) : Res (list (got ret)) :=
  match c with
  | CChaCha v n key iv => u_core (chacha_score e v n) (Some (chacha_seek v)) (new_internal v key iv) h
  | CXChaCha n key iv => u_core (chacha_score e Ietf n) (Some (chacha_seek Ietf)) (xchacha_new n key iv) h
  | CSalsa n key iv => u_core (salsa_score e n) (Some salsa_seek) (Ok (salsa_new key iv)) h
  | CXSalsa n key iv => u_core (salsa_score e n) (Some salsa_seek) (Ok (xsalsa_new n key iv)) h
  | CRabbit key iv => u_core (rabbit_score e) None (rabbit_new (e_ck e) key iv) h
  | CRabbitKeyOnly key => u_core (rabbit_score e) None (rabbit_key_only (e_ck e) key) h
  | CHc256 key iv => u_core (hc_score e) None (hc_new (e_ck e) (2 ^ e_usz e) key iv) h
  | CRc4 key => do r <- new_from_slice key; match r with None => Panic | Some s => Ok (u_rc4 s h) end
  end.

(** A generator: the getters take [&self], so a panic in them changes nothing
    ([chacha20/src/rng.rs:251-259,297-313]); a panic in a call that takes [&mut self] would leave
    the generator in a state this model does not follow, and is marked [UB]. *)
Definition by_ref (o : rop) : bool := match o with GetWordPos | GetBlockPos | GetStream | GetSeed | Serialize => true | _ => false end.
Fixpoint rng_caught (G : list N -> list N * list N) (ck : bool) (r : rng) (h : list rop) : list (got rret) :=
  match h with
  | [] => []
  | o :: h' => match rng_step G ck r o with
               | Ok (x, r') => Ret x :: rng_caught G ck r' h'
               | Panic => if by_ref o then Caught :: rng_caught G ck r h' else [UB]
               end
  end.
