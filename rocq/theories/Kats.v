From Verif Require Import Word Res Hex SpecChaCha ChaChaCore ChaChaSoft.
From Coq Require Import String.
Local Open Scope string_scope.

(** RFC 8439 §2.3.2. *)
Example spec_rfc8439_block :
  sp_ietf_block 10 (hex "000102030405060708090a0b0c0d0e0f101112131415161718191a1b1c1d1e1f") 1
    (hex "000000090000004a00000000")
  = hex "10f1e7e4d13b5915500fdd1fa32071c4c7d1f4c733c068030422aa9ac3d46c4ed2826446079faa0914c2d705d98b02a2b5129cd1de164eb9cbd083e8a2503c4e".
Proof. vm_compute. reflexivity. Qed.
Example model_rfc8439_block :
  (do st <- new_internal Ietf (hex "000102030405060708090a0b0c0d0e0f101112131415161718191a1b1c1d1e1f") (hex "000000090000004a00000000");
   Ok (fst (soft_gen_ks_block Ietf 10 (set_block_pos Ietf st 1))))
  = Ok (hex "10f1e7e4d13b5915500fdd1fa32071c4c7d1f4c733c068030422aa9ac3d46c4ed2826446079faa0914c2d705d98b02a2b5129cd1de164eb9cbd083e8a2503c4e").
Proof. vm_compute. reflexivity. Qed.
