(** Vocabulary shared by the [Properties*.v] files: what a byte array of a given length
    is, how the examples check it, and the data the examples use. *)
From Coq Require Import String.
From Coq Require Import Arith NArith List Bool.
From Verif Require Import Hex.
Import ListNotations.
Local Open Scope string_scope.
Local Open Scope N_scope.
Local Open Scope list_scope.

(** [n] bytes. *)
Definition octets (n : nat) (l : list N) : Prop := length l = n /\ Forall (fun b => b < 256) l.
(** A [[u32; 16]] value. *)
Definition u32x16 (l : list N) : Prop := length l = 16%nat /\ Forall (fun w => w < 2 ^ 32) l.
Lemma octets_check n l : (Nat.eqb (List.length l) n && forallb (fun b => b <? 256) l)%bool = true -> octets n l.
Proof.
  intros H. apply andb_prop in H as [H1 H2]. split; [apply Nat.eqb_eq; assumption|].
  apply Forall_forall. intros x Hx. rewrite forallb_forall in H2. apply N.ltb_lt, H2, Hx.
Qed.
Lemma u32x16_check l : (Nat.eqb (List.length l) 16 && forallb (fun b => b <? 2 ^ 32) l)%bool = true -> u32x16 l.
Proof.
  intros H. apply andb_prop in H as [H1 H2]. split; [apply Nat.eqb_eq; assumption|].
  apply Forall_forall. intros x Hx. rewrite forallb_forall in H2. apply N.ltb_lt, H2, Hx.
Qed.

Ltac checks :=
  repeat match goal with |- _ /\ _ => split end;
  first [ apply octets_check; vm_compute; reflexivity | apply u32x16_check; vm_compute; reflexivity
        | vm_compute; reflexivity | vm_compute; discriminate ].

(** Concrete data used by the examples. *)
Definition ex_key := hex "000102030405060708090a0b0c0d0e0f101112131415161718191a1b1c1d1e1f".
Definition ex_nonce12 := hex "000000090000004a00000000".
Definition ex_nonce8 := hex "0001020304050607".
Definition ex_nonce24 := hex "404142434445464748494a4b4c4d4e4f5051525354555658".
Definition ex_input16 := hex "000000090000004a0000000031415927".
