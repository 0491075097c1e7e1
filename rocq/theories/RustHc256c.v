(** The text of [f1], [f2] and of the bodies of the loops of [new] in [hc-256/src/lib.rs:61-109], run. *)
From Coq Require Import String Lia.
From Verif Require Import WordLemmas RustLemmas RustMeth RustRc4 Hc256 Hc256Proofs RustHc256.
Local Open Scope string_scope.
Local Open Scope N_scope.
Local Open Scope list_scope.
Ltac rs_norm t ::=
  eval cbv -[run_fn loop for_body inb geti updi in_range part splice numbers N.of_nat N.to_nat w_ltb w_sum w_diff w_prod
             add32 sub32 add64 xor32 rotl32 rotr32 w_add w_sub w_mul w_and w_or w_xor w_shl w_shr w_div w_mod w_trunc w_fits le_byte from_le N.pow] in t.
(** [hc-256/src/lib.rs:61-67] *)
Lemma src_f1 : forall ck usz d x, In usz pointer_widths -> run_fn (hc256_g ck usz) hc256_prog (S d) "f1" [VInt U32 x] = XOk (VInt U32 (f1 x), [VInt U32 x]).
Proof. intros ck usz d x U. rs_enter. rs_body. destruct U as [<-|[<-|[<-|[]]]]; rs_lhs; reflexivity. Qed.
Lemma src_f2 : forall ck usz d x, In usz pointer_widths -> run_fn (hc256_g ck usz) hc256_prog (S d) "f2" [VInt U32 x] = XOk (VInt U32 (f2 x), [VInt U32 x]).
Proof. intros ck usz d x U. rs_enter. rs_body. destruct U as [<-|[<-|[<-|[]]]]; rs_lhs; reflexivity. Qed.

Definition word_expr (l : string) : expr :=
  EBin "|"
    (EBin "|"
       (EBin "|"
          (EBin "&" (ECast (EIdx (EPath [l] []) (EBin "*" (ENum 4 "") (EPath ["i"] []))) (TyPath ["u32"])) (ENum 255 ""))
          (EBin "<<" (EBin "&" (ECast (EIdx (EPath [l] []) (EBin "+" (EBin "*" (ENum 4 "") (EPath ["i"] [])) (ENum 1 ""))) (TyPath ["u32"])) (ENum 255 "")) (ENum 8 "")))
       (EBin "<<" (EBin "&" (ECast (EIdx (EPath [l] []) (EBin "+" (EBin "*" (ENum 4 "") (EPath ["i"] [])) (ENum 2 ""))) (TyPath ["u32"])) (ENum 255 "")) (ENum 16 "")))
    (EBin "<<" (EBin "&" (ECast (EIdx (EPath [l] []) (EBin "+" (EBin "*" (ENum 4 "") (EPath ["i"] [])) (ENum 3 ""))) (TyPath ["u32"])) (ENum 255 "")) (ENum 24 "")).
Definition key_body : expr := EBlk [SExpr (EAsn "" (EIdx (EPath ["data"] []) (EPath ["i"] [])) (word_expr "key"))] None.
Definition iv_body : expr := EBlk [SExpr (EAsn "" (EIdx (EPath ["data"] []) (EBin "+" (EPath ["i"] []) (EPath ["KEY_WORDS"] []))) (word_expr "iv"))] None.

Lemma shl8 k y : k <= 24 -> w_shl 4294967296 (w_and y 255) k = N.shiftl (N.land y 255) k.
Proof.
  intros H. apply (shl_small _ _ _ 256); [apply land255_lt|].
  apply N.le_trans with (256 * 2 ^ 24); [|discriminate]. apply N.mul_le_mono_l. apply N.pow_le_mono_r; [discriminate|exact H].
Qed.
Lemma idx4 ck m i : 65536 <= m -> i < 8 -> w_mul ck m 4 i = Ok (4 * i).
Proof. intros. unfold w_mul. apply mul_ck_ok. lia. Qed.
Lemma idx4k ck m i k : 65536 <= m -> i < 8 -> k < 16 -> w_add ck m (4 * i) k = Ok (4 * i + k).
Proof. intros. unfold w_add. apply add_ck_ok. lia. Qed.
Ltac word_body t Ht U Hi :=
  unfold for_body, key_body, iv_body, word_expr;
  destruct Ht as [-> | ->]; destruct U as [<-|[<-|[<-|[]]]];
  match goal with |- flat ?m = _ => rs_eval m end;
  repeat (cbn [flat]; first [rewrite idx4 by (discriminate || exact Hi) | rewrite idx4k by (discriminate || exact Hi || reflexivity) 
          | match goal with B : forall k, k < _ -> inb k ?l = true |- context [if inb _ ?l then _ else _] => rewrite B by lia end
          | match goal with B : forall k, _ -> inb k ?l = true |- context [XChk (inb _ ?l) _] => rewrite B by lia end]);
  rewrite ?shl8 by discriminate; reflexivity.
Lemma src_key_body : forall ck usz cf t data out key iv i, In usz pointer_widths -> length key = 32%nat -> i < 8 -> length data = 2660%nat ->
  t = Any \/ t = U32 ->
  flat (for_body (hc256_g ck usz) hc256_prog cf "Hc256Core" (PVar "i") key_body (VInt Usz i) [("data", VArr t data); ("out", out); ("key", VArr U8 key); ("iv", iv)]) =
  match (do w <- le_word key i; set_idx data i w) with Ok d => XOk [("data", VArr U32 d); ("out", out); ("key", VArr U8 key); ("iv", iv)] | Panic => XPanic end.
Proof.
  intros ck usz cf t data out key iv i U Lk Hi Ld Ht. 
  assert (Bk : forall k, k < 32 -> inb k key = true) by (intros k Hk; unfold inb; rewrite Lk; apply N.ltb_lt; exact Hk).
  assert (Bd : forall k, k < 2660 -> inb k data = true) by (intros k Hk; unfold inb; rewrite Ld; apply N.ltb_lt; exact Hk).
  unfold le_word. rewrite !idx_inb. rewrite !Bk by lia. cbn [bind]. rewrite set_idx_inb, Bd by lia.
  word_body t Ht U Hi.
Qed.
Lemma iv_idx ck m i : 65536 <= m -> i < 8 -> w_add ck m i 8 = Ok (i + 8).
Proof. intros. unfold w_add. apply add_ck_ok. lia. Qed.
Lemma src_iv_body : forall ck usz cf data out key iv i, In usz pointer_widths -> length iv = 32%nat -> i < 8 -> length data = 2660%nat ->
  flat (for_body (hc256_g ck usz) hc256_prog cf "Hc256Core" (PVar "i") iv_body (VInt Usz i) [("data", VArr U32 data); ("out", out); ("key", key); ("iv", VArr U8 iv)]) =
  match (do w <- le_word iv i; set_idx data (i + KEY_WORDS) w) with Ok d => XOk [("data", VArr U32 d); ("out", out); ("key", key); ("iv", VArr U8 iv)] | Panic => XPanic end.
Proof.
  intros ck usz cf data out key iv i U Lk Hi Ld.
  assert (Bk : forall k, k < 32 -> inb k iv = true) by (intros k Hk; unfold inb; rewrite Lk; apply N.ltb_lt; exact Hk).
  assert (Bd : forall k, k < 2660 -> inb k data = true) by (intros k Hk; unfold inb; rewrite Ld; apply N.ltb_lt; exact Hk).
  unfold le_word, KEY_WORDS. rewrite !idx_inb. rewrite !Bk by lia. cbn [bind]. rewrite set_idx_inb, Bd by lia.
  destruct U as [<-|[<-|[<-|[]]]];
  unfold for_body, key_body, iv_body, word_expr;
  match goal with |- flat ?m = _ => rs_eval m end;
  repeat (cbn [flat]; first [rewrite iv_idx by (discriminate || exact Hi) | rewrite idx4 by (discriminate || exact Hi) | rewrite idx4k by (discriminate || exact Hi || reflexivity) 
          | match goal with B : forall k, _ -> inb k ?l = true |- context [XChk (inb _ ?l) _] => rewrite B by lia end]).
  all: rewrite !Bk, !Bd by lia; rewrite ?shl8 by discriminate; reflexivity.
Qed.

Definition expand_body : expr :=
  EBlk
    [SExpr
       (EAsn ""
          (EIdx (EPath ["data"] []) (EPath ["i"] []))
          (EMeth
             (EMeth
                (EMeth
                   (EMeth
                      (ECall ["f2"] [] [EIdx (EPath ["data"] []) (EBin "-" (EPath ["i"] []) (ENum 2 ""))])
                      "wrapping_add"
                      [EIdx (EPath ["data"] []) (EBin "-" (EPath ["i"] []) (ENum 7 ""))]) "wrapping_add"
                   [ECall ["f1"] [] [EIdx (EPath ["data"] []) (EBin "-" (EPath ["i"] []) (ENum 15 ""))]])
                "wrapping_add"
                [EIdx (EPath ["data"] []) (EBin "-" (EPath ["i"] []) (ENum 16 ""))]) "wrapping_add"
             [ECast (EPath ["i"] []) (TyPath ["u32"])]))]
    None.
Lemma src_expand_body : forall ck usz cf data out key iv i, In usz pointer_widths -> (16 <= i < 2660)%nat -> length data = 2660%nat ->
  (forall x, cf "f1" [VInt U32 x] = XOk (VInt U32 (f1 x), [VInt U32 x])) -> (forall x, cf "f2" [VInt U32 x] = XOk (VInt U32 (f2 x), [VInt U32 x])) ->
  flat (for_body (hc256_g ck usz) hc256_prog cf "Hc256Core" (PVar "i") expand_body (VInt Usz (N.of_nat i)) [("data", VArr U32 data); ("out", out); ("key", key); ("iv", iv)]) =
  match expand_step ck (2 ^ usz) i data with Ok d => XOk [("data", VArr U32 d); ("out", out); ("key", key); ("iv", iv)] | Panic => XPanic end.
Proof.
  intros ck usz cf data out key iv i U Hi Ld HF1 HF2.
  assert (Bd : forall k, k < 2660 -> inb k data = true) by (intros k Hk; unfold inb; rewrite Ld; apply N.ltb_lt; exact Hk).
  unfold expand_step. cbv zeta. assert (Hn : 16 <= N.of_nat i < 2660) by lia. generalize dependent (N.of_nat i). intros n Hn.
  assert (Sb : forall k m, k <= 16 -> w_sub ck m n k = Ok (n - k)) by (intros; apply sub_ck_ok; lia).
  change (sub_ck ck) with (w_sub ck). rewrite !Sb by discriminate. cbn [bind]. rewrite !idx_inb, !Bd by lia. cbn [bind]. rewrite set_idx_inb, Bd by lia.
  assert (Tn : as_u32 n = n) by (apply N.mod_small; apply N.lt_trans with 2660; [lia|reflexivity]). rewrite Tn. change as_u32 with (w_trunc 4294967296) in Tn.
  assert (In0 : inb n data = true) by (apply Bd; lia).
  assert (I2 : inb (n - 2) data = true) by (apply Bd; lia). assert (I7 : inb (n - 7) data = true) by (apply Bd; lia).
  assert (I15 : inb (n - 15) data = true) by (apply Bd; lia). assert (I16 : inb (n - 16) data = true) by (apply Bd; lia).
  assert (S2 := fun m => Sb 2 m ltac:(discriminate)). assert (S7 := fun m => Sb 7 m ltac:(discriminate)).
  assert (S15 := fun m => Sb 15 m ltac:(discriminate)). assert (S16 := fun m => Sb 16 m ltac:(discriminate)).
  clear Sb Bd. revert I2 I7 I15 I16 S2 S7 S15 S16. generalize (n - 2) (n - 7) (n - 15) (n - 16). intros n2 n7 n15 n16 I2 I7 I15 I16 S2 S7 S15 S16.
  unfold for_body, expand_body.
  match goal with |- context [bind_pat ?a ?b ?c] => rs_eval (bind_pat a b c) end; rs_flow; rewrite eval_blk; rs_flow; rewrite execs_cons, exec_expr, eval_asn.
  do 4 rewrite eval_meth_1 by (reflexivity || discriminate); rs_flow.
  destruct U as [<-|[<-|[<-|[]]]].
  all: rs_again; rewrite S2; rs_flow; rewrite I2; rs_flow; rewrite HF2; generalize (f2 (geti data n2)); intros v2.
  all: rs_again; rewrite S7; rs_flow; rewrite I7; rs_flow.
  all: rs_again; rewrite S15; rs_flow; rewrite I15; rs_flow; rewrite HF1; generalize (f1 (geti data n15)); intros v15.
  all: rs_again; rewrite S16; rs_flow; rewrite I16; rs_flow.
  all: rs_again; rewrite ?Tn; rewrite In0; rs_again; rewrite execs_nil; rs_lhs; reflexivity.
Qed.
