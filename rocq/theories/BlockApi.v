(** The block-level interface: the provided methods of [cipher::StreamCipherCore] and
    [StreamCipherSeekCore] (cipher 0.5.2) on the cores the crates export
    ([ChaChaCore] [chacha20/src/lib.rs:118-127], [XChaChaCore] [chacha20/src/xchacha.rs:40-42],
    [SalsaCore] [salsa20/src/lib.rs:56-61], [XSalsaCore] [salsa20/src/xsalsa.rs:28],
    [RabbitKeyOnlyCore] [rabbit/src/lib.rs:215-217], [RabbitCore] [:253-255], [Hc256Core]
    [hc-256/src/lib.rs:40-45]).  [Rc4] has no core.

    The methods are environment contract, modelled from their documented behaviour; what
    they call ([process_with_backend], [remaining_blocks], [get_block_pos], [set_block_pos])
    is the repository's.  A method for one block asks the backend for one block
    ([gen_ks_block]), a method for many asks for parallel chunks and a tail. *)
From Verif Require Export Ciphers.
From Verif Require Import SpecStream ChaChaCore ChaChaBackend ChaChaDispatch XChaCha CipherWrapper Salsa Rabbit Hc256.

(** Calls, in the order of the trait. *)
Inductive bop :=
| BRemaining                              (* remaining_blocks *)
| BWrite1                                 (* write_keystream_block *)
| BWrite (k : nat)                        (* write_keystream_blocks, [k] blocks *)
| BApply1 (d : list N)                    (* apply_keystream_block_inout, one block *)
| BApply (d : list N)                     (* apply_keystream_blocks(_inout), whole blocks *)
| BGetPos                                 (* get_block_pos *)
| BSetPos (b : N).                        (* set_block_pos *)
Inductive bret :=
| BBytes (l : list N)
| BCount (n : option N)
| BPos (b : N)
| BDone
| BNone.                                  (* no such method (does not type-check) *)

Section Block.
  Context {S : Type} (C : score S) (one : S -> Res (list N * S)) (K : option (sseek S)).
  Definition bstep (st : S) (o : bop) : Res (bret * S) :=
    match o with
    | BRemaining => Ok (BCount (sc_rem C st), st)
    | BWrite1 => do (k, st') <- one st; Ok (BBytes k, st')
    | BWrite k => do (k, st') <- sc_gen C k st; Ok (BBytes k, st')
    | BApply1 d => do (k, st') <- one st; Ok (BBytes (xorb_list d k), st')
    | BApply d => do (k, st') <- sc_gen C (length d / sc_bs C) st; Ok (BBytes (xorb_list d k), st')
    | BGetPos => match K with None => Ok (BNone, st) | Some K => Ok (BPos (sk_get K st), st) end
    | BSetPos b => match K with None => Ok (BNone, st) | Some K => Ok (BDone, sk_set K st b) end
    end.
  Fixpoint brun (st : S) (h : list bop) : Res (list bret * S) :=
    match h with
    | [] => Ok ([], st)
    | o :: h' => do (r, st1) <- bstep st o; do (rs, st2) <- brun st1 h'; Ok (r :: rs, st2)
    end.
  (** [try_apply_keystream_partial(self, buf)] consumes the core. *)
  Definition partial (st : S) (d : list N) : Res (option (list N)) :=
    let bs := sc_bs C in
    let blocks := if (length d mod bs =? 0)%nat then (length d / bs)%nat else (length d / bs + 1)%nat in
    if match sc_rem C st with Some rem => rem <? N.of_nat blocks | None => false end then Ok None
    else
      do (head, tail, st) <- (if (bs <? length d)%nat
                              then let m := (length d / bs * bs)%nat in
                                   do (k, st') <- sc_gen C (length d / bs) st;
                                   Ok (xorb_list (firstn m d) k, skipn m d, st')
                              else Ok ([], d, st));
      let n := length tail in
      if (n =? 0)%nat then Ok (Some head)
      else
        let block := tail ++ repeat 0 (bs - n) in                 (* copy_from_slice into a zero block *)
        do (k, _) <- one st;
        Ok (Some (head ++ firstn n (xorb_list block k))).
  (** A core, its calls, and possibly the consuming one. *)
  Definition brun_core (m : Res S) (h : list bop) (last : option (list N)) : Res (list bret * option (option (list N))) :=
    do st <- m; do (rs, st') <- brun st h;
    match last with
    | None => Ok (rs, None)
    | Some d => do r <- partial st' d; Ok (rs, Some r)
    end.
  (** A core whose calls are followed by [StreamCipherCoreWrapper::from_core] (cipher 0.5.2) and
      calls on the cipher. *)
  Definition bmix_core (m : Res S) (h : list bop) (ho : list op) : Res (list bret * list ret) :=
    do st <- m; do (rs, st') <- brun st h; do (rs', _) <- run C K (w_new C st') ho; Ok (rs, rs').
End Block.

(** One block of each core: [gen_ks_block] through [process_with_backend]
    [chacha20/src/lib.rs:240-304]; [salsa20/src/lib.rs:126-128]; [rabbit/src/lib.rs:244-247],
    [:286-289]; [hc-256/src/lib.rs:117-119]. *)
Definition chacha_one (e : env) (v : variant) (n : nat) : list N -> Res (list N * list N) :=
  process_with_backend (e_cfg e) (e_cpu e) v n (fun _ => [One]).
Definition hc_one (e : env) (s : hc) : Res (list N * hc) :=
  do (w, s1) <- gen_word (e_ck e) (2 ^ e_usz e) s; Ok (to_le 4 w, s1).

Definition block_run (e : env) (c : cipher) (h : list bop) (last : option (list N)) : Res (list bret * option (option (list N))) :=
  match c with
  | CChaCha v n key iv => brun_core (chacha_score e v n) (chacha_one e v n) (Some (chacha_seek v)) (new_internal v key iv) h last
  | CXChaCha n key iv => brun_core (chacha_score e Ietf n) (chacha_one e Ietf n) (Some (chacha_seek Ietf)) (xchacha_new n key iv) h last
  | CSalsa n key iv => brun_core (salsa_score e n) (salsa_gen_ks_block (e_ck e) n) (Some salsa_seek) (Ok (salsa_new key iv)) h last
  | CXSalsa n key iv => brun_core (salsa_score e n) (salsa_gen_ks_block (e_ck e) n) (Some salsa_seek) (Ok (xsalsa_new n key iv)) h last
  | CRabbit key iv => brun_core (rabbit_score e) (next_block (e_ck e)) None (rabbit_new (e_ck e) key iv) h last
  | CRabbitKeyOnly key => brun_core (rabbit_score e) (next_block (e_ck e)) None (rabbit_key_only (e_ck e) key) h last
  | CHc256 key iv => brun_core (hc_score e) (hc_one e) None (hc_new (e_ck e) (2 ^ e_usz e) key iv) h last
  | CRc4 _ => Ok (map (fun _ => BNone) h, match last with None => None | Some _ => Some None end)   (* no core *)
  end.

Definition mixed_run (e : env) (c : cipher) (h : list bop) (ho : list op) : Res (list bret * list ret) :=
  match c with
  | CChaCha v n key iv => bmix_core (chacha_score e v n) (chacha_one e v n) (Some (chacha_seek v)) (new_internal v key iv) h ho
  | CXChaCha n key iv => bmix_core (chacha_score e Ietf n) (chacha_one e Ietf n) (Some (chacha_seek Ietf)) (xchacha_new n key iv) h ho
  | CSalsa n key iv => bmix_core (salsa_score e n) (salsa_gen_ks_block (e_ck e) n) (Some salsa_seek) (Ok (salsa_new key iv)) h ho
  | CXSalsa n key iv => bmix_core (salsa_score e n) (salsa_gen_ks_block (e_ck e) n) (Some salsa_seek) (Ok (xsalsa_new n key iv)) h ho
  | CRabbit key iv => bmix_core (rabbit_score e) (next_block (e_ck e)) None (rabbit_new (e_ck e) key iv) h ho
  | CRabbitKeyOnly key => bmix_core (rabbit_score e) (next_block (e_ck e)) None (rabbit_key_only (e_ck e) key) h ho
  | CHc256 key iv => bmix_core (hc_score e) (hc_one e) None (hc_new (e_ck e) (2 ^ e_usz e) key iv) h ho
  | CRc4 _ => Ok (map (fun _ => BNone) h, [])   (* no core *)
  end.
