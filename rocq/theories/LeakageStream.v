(** Leakage-instrumented versions of the public stream-cipher types: the wrapper
    ([CipherWrapper.v], environment contract) around instrumented cores.  Same leakage
    model as [LeakageRes.v]: branch outcomes, array indices and addresses, in program order.
    HC-256 and RC4 are left out: their cores already leak the key (C57). *)
From Verif Require Export Word Res.
From Verif Require Import SpecStream ChaChaCore ChaChaBackend ChaChaDispatch XChaCha CipherWrapper Salsa Rabbit Ciphers
  Leakage LeakageRes LeakageSimd.

(** A part without panics; a part that returns a [Res]. *)
Definition sure {A} (m : L A) : LR A := (Ok (value m), trace m).
Definition may {A} (m : L (Res A)) : LR A := (value m, trace m).

(** ** Cores *)
Record lscore (S : Type) := {
  ls_bs : nat;
  ls_gen : nat -> S -> LR (list N * S);
  ls_rem : S -> LR (option N)
}.
Arguments ls_bs {S}. Arguments ls_gen {S}. Arguments ls_rem {S}.
Record lsseek (S : Type) := {
  lk_mod : N;
  lk_get : S -> LR N;
  lk_set : S -> N -> LR S
}.
Arguments lk_mod {S}. Arguments lk_get {S}. Arguments lk_set {S}.

(** The buffers [cipher]'s closures hand to a backend with [par] parallel blocks. *)
Definition req_blocks (par : nat) (r : req) : nat := match r with One => 1 | Par => par | Tail k => k end.
Definition with_bufs (par : nat) (l : list req) : list (req * list N) :=
  map (fun r => (r, repeat 0 (64 * req_blocks par r))) l.
(** [chacha20/src/backends/soft.rs:12-41], one block at a time. *)
Fixpoint soft_write_lk (v : variant) (n k : nat) (st : list N) : LR (list N * list N) :=
  match k with
  | O => leak [Br false] (Ok ([], st))
  | S k' => dol _ <- leak [Br true] (Ok tt);
            dol (o, st1) <- sure (l_soft_gen_ks_block v n st);
            dol (o', st2) <- soft_write_lk v n k' st1; rret (o ++ o', st2)
  end.
(** [chacha20/src/lib.rs:239-298] under [write_keystream_blocks].  The CPU features are read
    from a cache; what is read does not depend on the state. *)
Definition core_write_lk (c : config) (p : cpu) (v : variant) (n k : nat) (st : list N) : LR (list N * list N) :=
  let joined (m : LR (list (list N) * list N)) : LR (list N * list N) := dol (bufs, st') <- m; rret (concat bufs, st') in
  let soft := soft_write_lk v n k st in
  let avx512 := joined (avx512_inner_lk v n (with_bufs 16 (closure_reqs 16 k)) st) in
  let avx2 := joined (avx2_inner_lk v n (with_bufs 4 (closure_reqs 4 k)) st) in
  let sse2 := joined (sse2_inner_lk v n (with_bufs 4 (closure_reqs 4 k)) st) in
  let neon := joined (neon_inner_lk v n (with_bufs 8 (closure_reqs 8 k)) st) in
  match c_backend c with
  | CfgSoft => soft
  | b =>
    match c_target c with
    | X86 =>
      match b, c_avx512 c with
      | CfgAvx512, true => avx512
      | CfgAvx2, _ => avx2
      | CfgSse2, _ => sse2
      | _, a => dol h <- r_branch (a && has_avx512 p);
          if h then avx512
          else dol h <- r_branch (has_avx2 p);
          if h then avx2
          else dol h <- r_branch (has_sse2 p);
          if h then sse2 else soft
      end
    | Aarch64Neon => neon
    | OtherTarget => soft
    end
  end.
(** [chacha20/src/variants.rs:50-53], [:80-83] on the position read from the state. *)
Definition chacha_rem_lk (v : variant) (usz : N) (st : list N) : LR (option N) :=
  dol pos <- sure (l_get_block_pos v st);
  let remaining := counter_max v - pos in
  dol fits <- r_branch (remaining <? 2 ^ usz);
  rret (if fits : bool then Some remaining else None).
Definition chacha_lscore (e : env) (v : variant) (n : nat) : lscore (list N) :=
  {| ls_bs := 64; ls_gen := core_write_lk (e_cfg e) (e_cpu e) v n; ls_rem := chacha_rem_lk v (e_usz e) |}.
Definition chacha_lseek (v : variant) : lsseek (list N) :=
  {| lk_mod := match v with Ietf => M32 | Legacy => M64 end;
     lk_get := fun st => sure (l_get_block_pos v st);
     lk_set := fun st pos => sure (l_set_block_pos v st pos) |}.

(** [salsa20/src/lib.rs:126-128], one block at a time. *)
Fixpoint salsa_write_lk (ck : bool) (n k : nat) (st : list N) : LR (list N * list N) :=
  match k with
  | O => leak [Br false] (Ok ([], st))
  | S k' => dol _ <- leak [Br true] (Ok tt);
            dol (o, st1) <- may (l_salsa_gen_ks_block ck n st);
            dol (o', st2) <- salsa_write_lk ck n k' st1; rret (o ++ o', st2)
  end.
(** [salsa20/src/lib.rs:122-125] *)
Definition salsa_rem_lk (usz : N) (st : list N) : LR (option N) :=
  dol pos <- sure (l_salsa_get_pos st);
  let remaining := (M64 - 1) - pos in
  dol fits <- r_branch (remaining <? 2 ^ usz);
  rret (if fits : bool then Some remaining else None).
Definition salsa_lscore (e : env) (n : nat) : lscore (list N) :=
  {| ls_bs := 64; ls_gen := salsa_write_lk (e_ck e) n; ls_rem := salsa_rem_lk (e_usz e) |}.
Definition salsa_lseek : lsseek (list N) :=
  {| lk_mod := M64; lk_get := fun st => sure (l_salsa_get_pos st); lk_set := fun st pos => sure (l_salsa_set_pos st pos) |}.

(** [rabbit/src/lib.rs:235-248], [:277-290] *)
Definition rabbit_lscore (e : env) : lscore rstate :=
  {| ls_bs := 16; ls_gen := r_rabbit_write (e_ck e); ls_rem := fun _ => rret None |}.

(** ** The wrapper *)
Section Wrapper.
  Context {S : Type} (C : lscore S).
  Let bs := ls_bs C.

  (** The cached bytes are read one after the other from the cursor on. *)
  Definition read_cached_lk (w : wrapper S) (len : nat) : LR (list N * nat) :=
    let n := Nat.min (bs - w_cur w) len in
    leak (map Rd (seq (w_cur w) n)) (Ok (slice (w_buf w) (w_cur w) n, (w_cur w + n)%nat)).
  Definition write_block_lk (st : S) (buf : list N) (cur : nat) (read_len : nat) : LR (list N * wrapper S) :=
    dol z <- r_branch (read_len =? 0)%nat;
    if z then rret ([], Build_wrapper st buf cur)
    else dol _ <- r_assert (read_len <? bs)%nat;
         dol (blk, st') <- ls_gen C 1 st;
         dol out <- leak (map Rd (seq 0 read_len)) (Ok (firstn read_len blk));
         rret (out, Build_wrapper st' blk read_len).
  Definition check_remaining_lk (w : wrapper S) (len : nat) : LR bool :=
    dol r <- ls_rem C (w_core w);
    match r with
    | None => leak [Br false] (Ok true)
    | Some rem_blocks =>
        dol _ <- leak [Br true] (Ok tt);
        dol c <- r_branch (len <=? bs - w_cur w)%nat;
        if c then rret true
        else let blocks := ((len - (bs - w_cur w) + bs - 1) / bs)%nat in
             r_branch (N.of_nat blocks <=? rem_blocks)
    end.
  Definition unchecked_write_lk (w : wrapper S) (len : nat) : LR (list N * wrapper S) :=
    dol (head, cur) <- read_cached_lk w len;
    let rest := (len - length head)%nat in
    dol (body, st) <- ls_gen C (rest / bs) (w_core w);
    dol (tail, w') <- write_block_lk st (w_buf w) cur (rest mod bs);
    rret (head ++ body ++ tail, w').
  (** The XOR goes over the data byte by byte. *)
  Definition unchecked_apply_lk (w : wrapper S) (d : list N) : LR (list N * wrapper S) :=
    dol (k, w') <- unchecked_write_lk w (length d);
    dol out <- leak (flat_map (fun i => [Rd i; Wr i]) (seq 0 (length d))) (Ok (xorb_list d k));
    rret (out, w').
  Definition try_write_lk (w : wrapper S) (len : nat) : LR (option (list N * wrapper S)) :=
    dol c <- check_remaining_lk w len; dol c <- r_branch c;
    if c then dol r <- unchecked_write_lk w len; rret (Some r) else rret None.
  Definition try_apply_lk (w : wrapper S) (d : list N) : LR (option (list N * wrapper S)) :=
    dol c <- check_remaining_lk w (length d); dol c <- r_branch c;
    if c then dol r <- unchecked_apply_lk w d; rret (Some r) else rret None.
  Definition apply_b2b_lk (w : wrapper S) (d : list N) (out_len : nat) : LR (option (list N * wrapper S)) :=
    dol c <- r_branch (length d =? out_len)%nat; if c then try_apply_lk w d else rret None.

  Context (K : lsseek S).
  Definition try_seek_lk (w : wrapper S) (p : N) : LR (option (wrapper S)) :=
    let byte := N.to_nat (p mod N.of_nat bs) in
    let block := p / N.of_nat bs in
    dol c <- r_branch (block <? lk_mod K);
    if c then dol st <- lk_set K (w_core w) block;
              dol (_, w') <- write_block_lk st (w_buf w) bs byte; rret (Some w')
    else rret None.
  Definition try_current_pos_lk (w : wrapper S) (tmax : N) : LR (option N) :=
    let rem := N.of_nat (bs - w_cur w) in
    dol block <- lk_get K (w_core w);
    dol a <- r_branch (block <? tmax);
    if a then
      dol b <- r_branch (block * N.of_nat bs <? tmax);
      if b then
        dol c <- r_branch (rem <=? block * N.of_nat bs);
        rret (if c : bool then Some (block * N.of_nat bs - rem) else None)
      else rret None
    else rret None.
End Wrapper.

Definition step_lk {S} (C : lscore S) (K : option (lsseek S)) (w : wrapper S) (o : op) : LR (SpecStream.ret * wrapper S) :=
  let lift (m : LR (option (list N * wrapper S))) : LR (SpecStream.ret * wrapper S) :=
    dol r <- m;
    match r with
    | Some (b, w') => leak [Br true] (Ok (Bytes b, w'))
    | None => leak [Br false] (Ok (Err, w))
    end in
  match o with
  | Apply d => lift (try_apply_lk C w d)
  | ApplyB2b d m => lift (apply_b2b_lk C w d m)
  | Write n => lift (try_write_lk C w n)
  | Seek p => match K with
              | None => rret (Err, w)
              | Some K => dol r <- try_seek_lk C K w p;
                          match r with Some w' => leak [Br true] (Ok (Done, w')) | None => leak [Br false] (Ok (Err, w)) end
              end
  | CurPos t => match K with
                | None => rret (Err, w)
                | Some K => dol r <- try_current_pos_lk C K w t;
                            match r with Some p => leak [Br true] (Ok (Pos p, w)) | None => leak [Br false] (Ok (Err, w)) end
                end
  end.
Fixpoint run_lk {S} (C : lscore S) (K : option (lsseek S)) (w : wrapper S) (h : list op) : LR (list SpecStream.ret * wrapper S) :=
  match h with
  | [] => rret ([], w)
  | o :: h' => dol (r, w1) <- step_lk C K w o; dol (rs, w2) <- run_lk C K w1 h'; rret (r :: rs, w2)
  end.

(** ** The types *)
Inductive kind := KChaCha (v : variant) (n : nat) | KXChaCha (n : nat) | KSalsa (n : nat) | KXSalsa (n : nat)
  | KRabbit | KRabbitKeyOnly.
Definition of_kind (k : kind) (key iv : list N) : cipher :=
  match k with
  | KChaCha v n => CChaCha v n key iv
  | KXChaCha n => CXChaCha n key iv
  | KSalsa n => CSalsa n key iv
  | KXSalsa n => CXSalsa n key iv
  | KRabbit => CRabbit key iv
  | KRabbitKeyOnly => CRabbitKeyOnly key
  end.
(** Construct and make the calls [h] ([Ciphers.cipher_run]). *)
Definition run_core_lk {S} (C : lscore S) (K : option (lsseek S)) (m : LR S) (h : list op) : LR (list SpecStream.ret) :=
  dol st <- m; dol (rs, _) <- run_lk C K (Build_wrapper st (repeat 0 (ls_bs C)) (ls_bs C)) h; rret rs.
Definition kind_run_lk (e : env) (k : kind) (key iv : list N) (h : list op) : LR (list SpecStream.ret) :=
  match k with
  | KChaCha v n => run_core_lk (chacha_lscore e v n) (Some (chacha_lseek v)) (may (l_new_internal v key iv)) h
  | KXChaCha n => run_core_lk (chacha_lscore e Ietf n) (Some (chacha_lseek Ietf)) (may (l_xchacha_new n key iv)) h
  | KSalsa n => run_core_lk (salsa_lscore e n) (Some salsa_lseek) (sure (l_salsa_new key iv)) h
  | KXSalsa n => run_core_lk (salsa_lscore e n) (Some salsa_lseek) (sure (l_xsalsa_new n key iv)) h
  | KRabbit => run_core_lk (rabbit_lscore e) None (r_rabbit_new (e_ck e) key iv) h
  | KRabbitKeyOnly => run_core_lk (rabbit_lscore e) None (r_rabbit_key_only (e_ck e) key) h
  end.
