(** The text of [hc-256/src/lib.rs:136-161] ([g1], [g2], [h1], [h2]), run: it computes the functions of the model. *)
From Coq Require Import String Lia.
From Verif Require Import WordLemmas RustLemmas RustMeth RustRc4 Hc256 Hc256Proofs.
Local Open Scope string_scope.
Local Open Scope N_scope.
Local Open Scope list_scope.
Ltac rs_norm t ::=
  eval cbv -[run_fn loop for_body inb geti updi in_range part splice numbers N.of_nat N.to_nat w_ltb w_sum w_diff w_prod
             add32 sub32 add64 xor32 rotl32 rotr32 w_add w_sub w_mul w_and w_or w_xor w_shl w_shr w_div w_mod w_trunc w_fits le_byte from_le N.pow] in t.
Definition hc_val (s : hc) : val := VStruct "Hc256Core" [("ptable", VArr U32 (h_p s)); ("qtable", VArr U32 (h_q s)); ("idx", VInt U32 (h_idx s))].

Lemma mod_mul_mod a m k : m <> 0 -> k <> 0 -> (a mod (m * k)) mod m = a mod m.
Proof. intros Hm Hk. rewrite N.mod_mul_r by assumption. rewrite N.mul_comm, N.mod_add by exact Hm. apply N.mod_mod, Hm. Qed.
Lemma land1023_lt x : N.land x 1023 < 1024.
Proof. rewrite land_1023. apply N.mod_lt. discriminate. Qed.
Lemma land255_lt x : N.land x 255 < 256.
Proof. rewrite land_255. apply N.mod_lt. discriminate. Qed.
Lemma tr1 a : w_and (w_trunc 65536 a) 1023 = N.land a 1023.
Proof. unfold w_and, w_trunc. rewrite !land_1023. change 65536 with (1024 * 64). apply mod_mul_mod; discriminate. Qed.
Lemma tr2 a : w_and (w_trunc 4294967296 a) 1023 = N.land a 1023.
Proof. unfold w_and, w_trunc. rewrite !land_1023. change 4294967296 with (1024 * 4194304). apply mod_mul_mod; discriminate. Qed.
Lemma tr3 a : w_and (w_trunc 18446744073709551616 a) 1023 = N.land a 1023.
Proof. unfold w_and, w_trunc. rewrite !land_1023. change 18446744073709551616 with (1024 * 18014398509481984). apply mod_mul_mod; discriminate. Qed.
Lemma byte_index ck k y : k <= 768 -> w_add ck 4294967296 k (w_and y 255) = Ok (k + N.land y 255).
Proof. intros H. unfold w_and, w_add. pose proof (land255_lt y). apply add_ck_ok. lia. Qed.
Lemma tr_small m a : 1024 <= m -> a < 1024 -> w_trunc m a = a.
Proof. intros. apply N.mod_small. lia. Qed.
Lemma inb_1024 l n : length l = 1024%nat -> n < 1024 -> inb n l = true.
Proof. intros L H. unfold inb. rewrite L. apply N.ltb_lt. exact H. Qed.
Lemma src_g1 : forall ck usz d s x y, In usz pointer_widths -> length (h_q s) = 1024%nat ->
  run_fn (hc256_g ck usz) hc256_prog (S d) "Hc256Core::g1" [hc_val s; VInt U32 x; VInt U32 y] = 
  match Hc256.g1 s x y with Ok n => XOk (VInt U32 n, [hc_val s; VInt U32 x; VInt U32 y]) | Panic => XPanic end.
Proof.
  intros ck usz d [p q i] x y U L. unfold Hc256.g1, g_. rewrite idx_inb. unfold hc_val. cbn [h_p h_q h_idx] in *. rs_enter. rs_body.
  rewrite (inb_1024 _ _ L (land1023_lt _)). cbn [bind].
  destruct U as [<-|[<-|[<-|[]]]].
  all: rs_lhs; rewrite ?tr1, ?tr2, ?tr3; rewrite !(inb_1024 _ _ L (land1023_lt _)); rs_lhs; reflexivity.
Qed.
Lemma src_g2 : forall ck usz d s x y, In usz pointer_widths -> length (h_p s) = 1024%nat ->
  run_fn (hc256_g ck usz) hc256_prog (S d) "Hc256Core::g2" [hc_val s; VInt U32 x; VInt U32 y] = 
  match Hc256.g2 s x y with Ok n => XOk (VInt U32 n, [hc_val s; VInt U32 x; VInt U32 y]) | Panic => XPanic end.
Proof.
  intros ck usz d [p q i] x y U L. unfold Hc256.g2, g_. rewrite idx_inb. unfold hc_val. cbn [h_p h_q h_idx] in *. rs_enter. rs_body.
  rewrite (inb_1024 _ _ L (land1023_lt _)). cbn [bind].
  destruct U as [<-|[<-|[<-|[]]]].
  all: rs_lhs; rewrite ?tr1, ?tr2, ?tr3; rewrite !(inb_1024 _ _ L (land1023_lt _)); rs_lhs; reflexivity.
Qed.
Lemma src_h1 : forall ck usz d s x, In usz pointer_widths -> length (h_q s) = 1024%nat ->
  run_fn (hc256_g ck usz) hc256_prog (S d) "Hc256Core::h1" [hc_val s; VInt U32 x] = 
  match Hc256.h1 ck s x with Ok n => XOk (VInt U32 n, [hc_val s; VInt U32 x]) | Panic => XPanic end.
Proof.
  intros ck usz d [p q i] x U L. unfold Hc256.h1, h_. unfold hc_val. cbn [h_p h_q h_idx] in *. rs_enter. rs_body. 
  assert (B : forall k y, k <= 768 -> k + N.land y 255 < 1024) by (intros k y Hk; pose proof (land255_lt y); lia).
  assert (B0 : forall y, N.land y 255 < 1024) by (intros y; pose proof (land255_lt y); lia).
  assert (C : forall k y, k <= 768 -> add_ck ck M32 k (N.land y 255) = Ok (k + N.land y 255)) by (intros k y Hk; exact (byte_index ck k y Hk)).
  rewrite !C by discriminate. cbn [bind]. rewrite !idx_inb. rewrite !(inb_1024 _ _ L) by (apply B0 || (apply B; discriminate)). cbn [bind].
  destruct U as [<-|[<-|[<-|[]]]].
  all: rs_lhs; rewrite !byte_index by discriminate; cbv beta match; change w_and with N.land; change w_shr with N.shiftr.
  all: rewrite ?tr_small by (discriminate || apply B0 || (apply B; discriminate)).
  all: rewrite !(inb_1024 _ _ L) by (apply B0 || (apply B; discriminate)).
  all: generalize (256 + N.land (N.shiftr x 8) 255) (512 + N.land (N.shiftr x 16) 255) (768 + N.land (N.shiftr x 24) 255) (N.land x 255); intros a b c e.
  all: rs_lhs; reflexivity.
Qed.
Lemma src_h2 : forall ck usz d s x, In usz pointer_widths -> length (h_p s) = 1024%nat ->
  run_fn (hc256_g ck usz) hc256_prog (S d) "Hc256Core::h2" [hc_val s; VInt U32 x] = 
  match Hc256.h2 ck s x with Ok n => XOk (VInt U32 n, [hc_val s; VInt U32 x]) | Panic => XPanic end.
Proof.
  intros ck usz d [p q i] x U L. unfold Hc256.h2, h_. unfold hc_val. cbn [h_p h_q h_idx] in *. rs_enter. rs_body. 
  assert (B : forall k y, k <= 768 -> k + N.land y 255 < 1024) by (intros k y Hk; pose proof (land255_lt y); lia).
  assert (B0 : forall y, N.land y 255 < 1024) by (intros y; pose proof (land255_lt y); lia).
  assert (C : forall k y, k <= 768 -> add_ck ck M32 k (N.land y 255) = Ok (k + N.land y 255)) by (intros k y Hk; exact (byte_index ck k y Hk)).
  rewrite !C by discriminate. cbn [bind]. rewrite !idx_inb. rewrite !(inb_1024 _ _ L) by (apply B0 || (apply B; discriminate)). cbn [bind].
  destruct U as [<-|[<-|[<-|[]]]].
  all: rs_lhs; rewrite !byte_index by discriminate; cbv beta match; change w_and with N.land; change w_shr with N.shiftr.
  all: rewrite ?tr_small by (discriminate || apply B0 || (apply B; discriminate)).
  all: rewrite !(inb_1024 _ _ L) by (apply B0 || (apply B; discriminate)).
  all: generalize (256 + N.land (N.shiftr x 8) 255) (512 + N.land (N.shiftr x 16) 255) (768 + N.land (N.shiftr x 24) 255) (N.land x 255); intros a b c e.
  all: rs_lhs; reflexivity.
Qed.
