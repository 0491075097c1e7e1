(** C51: the [unsafe] pointer code of the SIMD backends stays inside its allocations and
    fills exactly the caller's buffers (memory model: [Memory.v]). *)
From Verif Require Import Word Res Hex PropCommon ChaChaCore ChaChaBackend ChaChaSoft ChaChaSse2 ChaChaAvx2 ChaChaAvx512
  ChaChaNeon ChaChaProofs Memory MemoryProofs.
From Coq Require Import Lia.

(** A closure's requests, each with a buffer of the type the trait demands: 64 bytes for
    a block, [64 * par] for a parallel batch, [64 * k] for a tail of [k < par] blocks. *)
Definition good_requests (par : nat) (l : list (req * list N)) : Prop :=
  Forall (fun x => match fst x with
                   | One => length (snd x) = 64%nat
                   | Par => length (snd x) = (64 * par)%nat
                   | Tail k => (k < par)%nat /\ length (snd x) = (64 * k)%nat
                   end) l.
Lemma good_requests_ok par l : good_requests par l -> forallb (req_ok par) (map fst l) = true /\ buffers_fit par l.
Proof.
  induction 1 as [|[r m] l H HF [IH1 IH2]]; [split; [reflexivity | constructor]|].
  cbn [map fst snd forallb req_ok] in *.
  destruct r as [| |k]; cbn [req_ok fst snd] in *.
  - split; [exact IH1 | constructor; [exact H | exact IH2]].
  - split; [exact IH1 | constructor; [exact H | exact IH2]].
  - destruct H as [H1 H2]. split; [apply andb_true_intro; split; [apply Nat.ltb_lt; exact H1 | exact IH1]
                                  | constructor; [exact H2 | exact IH2]].
Qed.

(** [f], run with pointers on [l] from [st], does nothing undefined, leaves buffers of
    the same sizes, and these hold the bytes that [g], the value-level model, yields; the
    state written back through pointers is [g]'s too.  [g]'s output does not mention the
    buffers, so every byte of them has been overwritten. *)
Definition pointer_code_ok (f : list (req * list N) -> list N -> Res (list (list N) * list N))
  (g : list req -> list N -> Res (list N * list N)) (l : list (req * list N)) (st : list N) : Prop :=
  exists bufs st', f l st = Ok (bufs, st')
    /\ map (@length N) bufs = map (fun x => length (snd x)) l
    /\ g (map fst l) st = Ok (concat bufs, st').

Theorem C51_sse2 v n l st : u32x16 st -> good_requests 4 l ->
  pointer_code_ok (sse2_inner_mem v n) (sse2_inner v n) l st.
Proof. intros H1 H2. destruct (good_requests_ok _ _ H2). apply sse2_inner_mem_ok; assumption. Qed.
Print Assumptions C51_sse2.
Theorem C51_avx2 v n l st : u32x16 st -> good_requests 4 l ->
  pointer_code_ok (avx2_inner_mem v n) (avx2_inner v n) l st.
Proof. intros H1 H2. destruct (good_requests_ok _ _ H2). apply avx2_inner_mem_ok; assumption. Qed.
Print Assumptions C51_avx2.
Theorem C51_avx512 v n l st : u32x16 st -> good_requests 16 l ->
  pointer_code_ok (avx512_inner_mem v n) (avx512_inner v n) l st.
Proof. intros H1 H2. destruct (good_requests_ok _ _ H2). apply avx512_inner_mem_ok; assumption. Qed.
Print Assumptions C51_avx512.
Theorem C51_neon v n l st : u32x16 st -> good_requests 8 l ->
  pointer_code_ok (neon_inner_mem v n) (neon_inner v n) l st.
Proof. intros H1 H2. destruct (good_requests_ok _ _ H2). apply neon_inner_mem_ok; assumption. Qed.
Print Assumptions C51_neon.

(** The generators' refill: the 256-byte output buffer, whatever it held. *)
Theorem C51_rng v n st mem : u32x16 st -> length mem = 256%nat ->
  (exists mem', sse2_rng_inner_mem v n st mem = Ok (mem', snd (sse2_rng_inner v n st))
     /\ length mem' = 256%nat /\ words_of_bytes mem' = fst (sse2_rng_inner v n st))
  /\ (exists mem', avx2_rng_inner_mem n st mem = Ok (mem', snd (avx2_rng_inner n st))
     /\ length mem' = 256%nat /\ words_of_bytes mem' = fst (avx2_rng_inner n st))
  /\ (exists mem', neon_rng_inner_mem v n st mem = Ok (mem', snd (neon_rng_inner v n st))
     /\ length mem' = 256%nat /\ words_of_bytes mem' = fst (neon_rng_inner v n st)).
Proof.
  intros H Hm. split; [apply sse2_rng_mem_ok; assumption|].
  split; [apply avx2_rng_mem_ok | apply neon_rng_mem_ok]; assumption.
Qed.
Print Assumptions C51_rng.

(** The AVX-512 tail takes a different code path for 1, 2, 3-4, 5-8 and 9-15 blocks. *)
Example C51_satisfiable :
  u32x16 (mk_state Legacy ex_key ex_nonce8 0xffffffff)
  /\ good_requests 16 [(One, repeat 1 64); (Par, repeat 2 1024); (Tail 0, []); (Tail 2, repeat 3 128); (Tail 3, repeat 4 192);
                       (Tail 7, repeat 5 448); (Tail 15, repeat 6 960)]
  /\ good_requests 8 [(Par, repeat 2 512); (Tail 7, repeat 5 448)]
  /\ good_requests 4 [(Tail 3, repeat 4 192); (One, repeat 0 64); (Par, repeat 2 256)].
Proof.
  split; [apply u32x16_check; vm_compute; reflexivity|].
  unfold good_requests. split; [|split]; repeat constructor.
Qed.
(** The memory model does notice accesses that are out of bounds. *)
Example C51_model_is_strict :
  let st := mk_state Legacy ex_key ex_nonce8 0xffffffff in
  sse2_one_mem Legacy 0 (sse2_load st) (repeat 0 63) = Panic
  /\ sse2_store_par (repeat (sse2_load st) 4) (repeat 0 255) = Panic
  /\ avx2_store_par (repeat (repeat (repeat (repeat 0 4) 2) 4) 2) (repeat 0 192) = Panic
  /\ p_add (whole (repeat 0 64) 16) 5 = Panic
  /\ load128 (bytes_of_words st) {| p_lo := 0; p_hi := 64; p_off := 52; p_esz := 4 |} = Panic.
Proof. vm_compute. repeat split; reflexivity. Qed.
