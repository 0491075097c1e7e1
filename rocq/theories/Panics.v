(** The methods that unwrap: [StreamCipher::apply_keystream], [write_keystream],
    [StreamCipherSeek::seek] and [current_pos] (cipher 0.5.2) call their [try_] forms and
    [unwrap] the result, so an error becomes a panic.  They are the ones the crates' own
    examples and tests use ([chacha20/README.md:67-83], [rabbit/README.md:45-58],
    [hc-256/README.md:44-57], [rc4/README.md:45]).  Environment contract, like [CipherWrapper.v].

    A call [(true, o)] is the unwrapping form of [o] (or the caller's own [unwrap] where no
    such method exists), [(false, o)] the [try_] form. *)
From Verif Require Export SeekNum.
From Verif Require Import Res SpecStream ChaChaCore XChaCha CipherWrapper Salsa Rabbit Hc256 Rc4.

Section Unwrap.
  Context {W R O : Type} (step : W -> O -> Res (R * W)) (failed : R -> bool).
  Definition ustep (w : W) (o : bool * O) : Res (R * W) :=
    do (r, w') <- step w (snd o); if fst o && failed r then Panic else Ok (r, w').
  Fixpoint urun (w : W) (h : list (bool * O)) : Res (list R) :=
    match h with
    | [] => Ok []
    | o :: h' => do (r, w1) <- ustep w o; do rs <- urun w1 h'; Ok (r :: rs)
    end.
End Unwrap.
Definition t_failed (r : tret) : bool := match r with Ans Err => true | _ => false end.
(** Ciphers without [StreamCipherSeekCore] have the plain calls only. *)
Definition plain_step {W} (step : W -> op -> Res (ret * W)) (w : W) (o : top) : Res (tret * W) :=
  match o with
  | Plain o => do (r, w') <- step w o; Ok (Ans r, w')
  | _ => Ok (Ans Err, w)                 (* does not type-check *)
  end.

(** A fresh cipher of any type. *)
Definition unwrap_run (e : env) (c : cipher) (h : list (bool * top)) : Res (list tret) :=
  let seek {S} (C : score S) K (m : Res S) := do st <- m; urun (tstep C K (e_usz e)) t_failed (w_new C st) h in
  let other {S} (C : score S) (m : Res S) := do st <- m; urun (plain_step (step C None)) t_failed (w_new C st) h in
  match c with
  | CChaCha v n key iv => seek (chacha_score e v n) (chacha_seek v) (new_internal v key iv)
  | CXChaCha n key iv => seek (chacha_score e Ietf n) (chacha_seek Ietf) (xchacha_new n key iv)
  | CSalsa n key iv => seek (salsa_score e n) salsa_seek (Ok (salsa_new key iv))
  | CXSalsa n key iv => seek (salsa_score e n) salsa_seek (Ok (xsalsa_new n key iv))
  | CRabbit key iv => other (rabbit_score e) (rabbit_new (e_ck e) key iv)
  | CRabbitKeyOnly key => other (rabbit_score e) (rabbit_key_only (e_ck e) key)
  | CHc256 key iv => other (hc_score e) (hc_new (e_ck e) (2 ^ e_usz e) key iv)
  | CRc4 key =>
      do r <- new_from_slice key;
      match r with None => Panic | Some s => urun (plain_step rc4_step) t_failed s h end
  end.
