(** Final theorem C95: the source text of the RC4 and HC-256 crates, parsed and executed, is
    the model, and so computes the ciphers of the specifications. *)
From Coq Require Import String.
From Verif Require Import Word WordLemmas Res Hex PropCommon SpecRC4 Rc4 Rc4Proofs SpecHC256 Hc256 Hc256Proofs Hc256Fast PropertiesHc256
  RustPrograms RustLemmas RustRc4 RustRc4b RustRc4c RustHc256 RustHc256b RustHc256c RustHc256d RustHc256e PropertiesSource.
From Coq Require Import ZArith Lia ZifyBool ZifyNat ZifyN.
Local Open Scope string_scope.
Local Open Scope N_scope.
Local Open Scope list_scope.
Local Notation length := List.length.

(** ** RC4 *)
(** What a program asks of the cipher: keystream written over a buffer; data read from one
    buffer and written, encrypted, to another. *)
Inductive rc4_call := Keystream (buf : list N) | Encrypt (input out : list N).
Definition call_ok (c : rc4_call) : Prop := match c with Keystream _ => True | Encrypt i o => length i = length o end.
(** The calls made of the text, one after the other, and what the buffers then hold. *)
Fixpoint text_rc4_calls (run : caller) (cs : list rc4_call) (self : val) : X (list (list N)) :=
  match cs with
  | [] => XOk []
  | Keystream buf :: cs =>
      let! (_, args) := run "Rc4::unchecked_write_keystream" [self; VArr U8 buf] in
      match args with
      | [self; VArr U8 o] => let! l := text_rc4_calls run cs self in XOk (o :: l)
      | _ => XStuck
      end
  | Encrypt i o :: cs =>
      let! (_, args) := run "Rc4::unchecked_apply_keystream_inout" [self; VStruct "InOutBuf" [("0", VArr U8 i); ("1", VArr U8 o)]] in
      match args with
      | [self; VStruct "InOutBuf" [("0", VArr U8 i'); ("1", VArr U8 o')]] =>
          if forallb (fun p => fst p =? snd p) (combine i i') then let! l := text_rc4_calls run cs self in XOk (o' :: l) else XStuck
      | _ => XStuck
      end
  end.
(** [None]: the key was refused. *)
Definition text_rc4 (run : caller) (key : list N) (cs : list rc4_call) : X (option (list (list N))) :=
  let! (r, _) := run "Rc4::new_from_slice" [VArr U8 key] in
  match r with
  | VCon "Ok" [self] => let! l := text_rc4_calls run cs self in XOk (Some l)
  | VCon "Err" [_] => XOk None
  | _ => XStuck
  end.
(** What they hold according to the specification, from keystream byte [p] on. *)
Fixpoint rc4_outputs (key : list N) (p : nat) (cs : list rc4_call) : list (list N) :=
  match cs with
  | [] => []
  | Keystream buf :: cs => map (rc_byte key) (seq p (length buf)) :: rc4_outputs key (p + length buf) cs
  | Encrypt i _ :: cs => map (fun x => N.lxor (fst x) (rc_byte key (snd x))) (combine i (seq p (length i))) :: rc4_outputs key (p + length i) cs
  end.

Lemma prga_iter_add a b s : prga_iter a (prga_iter b s) = prga_iter (a + b) s.
Proof. unfold prga_iter. induction a as [|a IH]; cbn; [reflexivity|]. f_equal. exact IH. Qed.
Lemma sbyte_at key s p n : kwf s -> krep s (rc_init key) -> map (sbyte (prga_iter p s)) (seq 0 n) = map (rc_byte key) (seq p n).
Proof.
  intros W R. replace (seq p n) with (map (fun i => (i + p)%nat) (seq 0 n)).
  - rewrite map_map. apply map_ext. intros i. unfold sbyte. rewrite prga_iter_add. exact (sbyte_spec s key (i + p) W R).
  - clear. revert p. induction n as [|n IH]; intros p; [reflexivity|]. cbn [seq map]. rewrite <- (IH (S p)), <- (seq_shift n 0), map_map.
    f_equal. apply map_ext. intros i. lia.
Qed.
Lemma xor_map l : forall (f : nat -> N) p, xorb_list l (map f (seq p (length l))) = map (fun x => N.lxor (fst x) (f (snd x))) (combine l (seq p (length l))).
Proof. induction l as [|a l IH]; intros f p; [reflexivity|]. cbn [length seq map combine xorb_list fst snd]. rewrite IH. reflexivity. Qed.
Lemma same_list (l : list N) : forallb (fun p => fst p =? snd p) (combine l l) = true.
Proof. induction l as [|a l IH]; [reflexivity|]. cbn [combine forallb fst snd]. rewrite N.eqb_refl, IH. reflexivity. Qed.

Lemma text_rc4_calls_ok ck usz d key s : In usz pointer_widths -> kwf s -> krep s (rc_init key) -> forall cs p, Forall call_ok cs ->
  text_rc4_calls (caller_of (rc4_g ck usz) rc4_prog (S (S (S d)))) cs (rc4_val (prga_iter p s)) = XOk (rc4_outputs key p cs).
Proof.
  intros U W R. induction cs as [|c cs IH]; intros p Hc; [reflexivity|]. inversion Hc as [|? ? Hok Hcs]; subst.
  unfold caller_of in *. destruct c as [buf|i o]; cbn [text_rc4_calls rc4_outputs].
  - rewrite src_rc4_write_keystream by (try assumption; apply prga_iter_wf; assumption).
    rewrite rc4_write_ok by (apply prga_iter_wf; assumption). rewrite xbind_ok. cbv beta iota.
    rewrite prga_iter_add. replace (length buf + p)%nat with (p + length buf)%nat by lia. rewrite IH by assumption. rewrite xbind_ok.
    rewrite (sbyte_at key) by assumption. reflexivity.
  - change (VStruct "InOutBuf" [("0", VArr U8 i); ("1", VArr U8 o)]) with (inout i o).
    rewrite src_rc4_apply by (try assumption; apply prga_iter_wf; assumption).
    rewrite rc4_apply_ok by (apply prga_iter_wf; assumption). rewrite xbind_ok. unfold inout. cbv beta iota. rewrite same_list.
    rewrite prga_iter_add. replace (length i + p)%nat with (p + length i)%nat by lia. rewrite IH by assumption. rewrite xbind_ok.
    rewrite (sbyte_at key) by assumption. rewrite xor_map. reflexivity.
Qed.
(** For every key, every pointer width, with and without overflow checks, whatever the calls:
    keys of 1 to 256 bytes are accepted, and the calls give the consecutive stretches of
    RC4's keystream, alone or added to the data.  Nothing panics. *)
Theorem C95_rc4 ck usz fuel key cs : In usz pointer_widths -> (3 <= fuel)%nat -> Forall call_ok cs ->
  text_rc4 (caller_of (rc4_g ck usz) rc4_prog fuel) key cs =
  XOk (if (1 <=? length key)%nat && (length key <=? 256)%nat then Some (rc4_outputs key 0 cs) else None).
Proof.
  intros U F Hc. destruct (fuel3 fuel F) as [d ->]. unfold text_rc4. unfold caller_of at 1. rewrite src_rc4_new by assumption.
  destruct (Nat.leb_spec 1 (length key)) as [H1|H1]; [destruct (Nat.leb_spec (length key) 256) as [H2|H2]|].
  - destruct (new_ok key (conj H1 H2)) as (s & E & W & R). rewrite E. rewrite xbind_ok. cbv beta iota.
    pose proof (text_rc4_calls_ok ck usz d key s U W R cs 0 Hc) as T. change (prga_iter 0 s) with s in T. rewrite T. reflexivity.
  - rewrite new_err by lia. reflexivity.
  - rewrite new_err by lia. reflexivity.
Qed.
Print Assumptions C95_rc4.
(** [new], for the key type of the crate, does the same without the [Result]; there is never
    too little keystream. *)
Theorem C95_rc4_functions ck usz d key s n : In usz pointer_widths -> (1 <= length key <= 256)%nat ->
  let run := caller_of (rc4_g ck usz) rc4_prog (S (S d)) in
  run "Rc4::check_remaining" [rc4_val s; VInt Usz (N.of_nat n)] = XOk (VCon "Ok" [VUnit], [rc4_val s; VInt Usz (N.of_nat n)]) /\
  exists self, run "Rc4::new_from_slice" [VArr U8 key] = XOk (VCon "Ok" [self], [VArr U8 key]) /\ run "Rc4::new" [VArr U8 key] = XOk (self, [VArr U8 key]).
Proof.
  intros U H run. unfold run, caller_of. split.
  - rewrite src_rc4_check. reflexivity.
  - destruct (new_ok key H) as (s0 & E & _). exists (rc4_val s0). split.
    + rewrite src_rc4_new by assumption. rewrite E. reflexivity.
    + rewrite src_rc4_new32 by assumption. unfold rc4_new. rewrite E. reflexivity.
Qed.
Print Assumptions C95_rc4_functions.
(** RFC 6229, a key of 5 bytes: 16 bytes written, the next 16 added to data. *)
Example C95_rc4_satisfiable : In 16 pointer_widths /\
  Forall call_ok [Keystream (repeat 0xaa 16); Encrypt (repeat 0xff 16) (repeat 0 16)] /\
  text_rc4 (caller_of (rc4_g true 16) rc4_prog 3) (hex "0102030405") [Keystream (repeat 0xaa 16); Encrypt (repeat 0xff 16) (repeat 0 16)] =
  XOk (Some [hex "b2396305f03dc027ccc3524a0a1118a8"; map (N.lxor 0xff) (hex "6982944f18fc82d589c403a47a0d0919")]) /\
  text_rc4 (caller_of (rc4_g true 16) rc4_prog 3) (repeat 1 257) [] = XOk None.
Proof.
  assert (U : In 16 pointer_widths) by (left; reflexivity).
  assert (C : Forall call_ok [Keystream (repeat 0xaa 16); Encrypt (repeat 0xff 16) (repeat 0 16)]) by (repeat constructor).
  split; [exact U|]. split; [exact C|]. split; [rewrite C95_rc4 by (try assumption; lia); vm_compute; reflexivity|].
  rewrite C95_rc4 by (try assumption; try lia; constructor). reflexivity.
Qed.

(** ** HC-256 *)
Fixpoint text_words (run : caller) (k : nat) (b : val) : X (list N) :=
  match k with
  | O => XOk []
  | S k' =>
      let! (_, args) := run "Backend::gen_ks_block" [b; VArr U8 (repeat 0 4)] in
      match args with
      | [b'; VArr U8 o] => let! l := text_words run k' b' in XOk (o ++ l)
      | _ => XStuck
      end
  end.
Definition text_hc256 (run : caller) (key iv : list N) (k : nat) : X (list N) :=
  let! (core, _) := run "Hc256Core::new" [VArr U8 key; VArr U8 iv] in text_words run k (backend_of core).
Lemma usize_of usz : In usz pointer_widths -> usize_ok (2 ^ usz).
Proof. intros [<-|[<-|[<-|[]]]]; unfold usize_ok; auto. Qed.
Lemma text_words_ok ck usz d t k : In usz pointer_widths -> forall n s, hrel s (hc_run t n) (N.of_nat n) ->
  text_words (caller_of (hc256_g ck usz) hc256_prog (S (S (S d)))) k (backend_of (hc_val s)) =
  XOk (flat_map (fun i => to_le 4 (fst (hc_step (N.of_nat i) (hc_run t i)))) (seq n k)).
Proof.
  intros U. induction k as [|k IH]; intros n s H; cbn [text_words seq flat_map]; [reflexivity|].
  unfold caller_of in *. pose proof H as ((Hp & _) & (Hq & _) & Hi). unfold backend_of at 1.
  assert (Hx : h_idx s < 2048) by (rewrite Hi; apply N.mod_lt; discriminate).
  rewrite src_hc_block by (try assumption; reflexivity).
  destruct (gen_word_ok ck (2 ^ usz) s _ _ (usize_of usz U) H) as (s1 & E1 & H1). rewrite E1. rewrite xbind_ok. cbv beta iota.
  change (VStruct "Backend" [("0", hc_val s1)]) with (backend_of (hc_val s1)).
  rewrite (IH (S n) s1); [reflexivity|]. cbn [hc_run]. replace (N.of_nat (S n)) with (N.of_nat n + 1) by lia. exact H1.
Qed.
(** For every key and nonce, every pointer width, with and without overflow checks: the
    initialisation of 2660 words and 4096 steps and any number of keystream words, without a
    panic. *)
Theorem C95_hc256 ck usz fuel key iv k : In usz pointer_widths -> (3 <= fuel)%nat -> octets 32 key -> octets 32 iv ->
  text_hc256 (caller_of (hc256_g ck usz) hc256_prog fuel) key iv k = XOk (flat_map (fun n => to_le 4 (hc_word key iv n)) (seq 0 k)).
Proof.
  intros U F [Lk Bk] [Li Bi]. destruct (fuel3 fuel F) as [d ->]. unfold text_hc256. unfold caller_of at 1. rewrite src_hc_new by assumption.
  destruct (hc_new_ok key iv Lk Bk Li Bi ck (2 ^ usz) (usize_of usz U)) as (s & E & H). rewrite E. rewrite xbind_ok. cbv beta iota.
  exact (text_words_ok ck usz d (hc_init key iv) k U 0 s H).
Qed.
Print Assumptions C95_hc256.
(** The first test vector of the HC-256 paper, zero key and nonce. *)
Example C95_hc256_satisfiable : In 32 pointer_widths /\ octets 32 (repeat 0 32) /\
  text_hc256 (caller_of (hc256_g true 32) hc256_prog 3) (repeat 0 32) (repeat 0 32) 4 = XOk (hex "5b078985d8f6f30d42c5c02fa6b67951").
Proof.
  assert (U : In 32 pointer_widths) by (right; left; reflexivity).
  assert (K : octets 32 (repeat 0 32)) by (apply octets_check; vm_compute; reflexivity).
  split; [exact U|]. split; [exact K|]. rewrite C95_hc256 by (try assumption; lia). rewrite (proj2 (proj2 C40_satisfiable)). reflexivity.
Qed.
