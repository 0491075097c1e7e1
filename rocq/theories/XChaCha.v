(** Model of [chacha20/src/xchacha.rs]. *)
From Verif Require Export ChaChaCore.

(** [xchacha.rs:113-153]; [n] is [R::COUNT]. *)
Definition hchacha (n : nat) (key input : list N) : list N :=
  let state := repeat 0 16 in                                                   (* :114 *)
  let state := CONSTANTS ++ skipn 4 state in                                    (* :115 *)
  let state := firstn 4 state ++ zip_assign (slice state 4 8) (words_of_bytes key)
               ++ skipn 12 state in                                             (* :118-121 *)
  let state := firstn 12 state ++ zip_assign (slice state 12 4) (words_of_bytes input) in (* :122-125 *)
  let state := iter_n n double_round state in                                   (* :128-140 *)
  bytes_of_words (firstn 4 state) ++ bytes_of_words (skipn 12 state).           (* :142-152 *)

(** [xchacha.rs:57-66] ([KeyIvInit::new]). *)
Definition xchacha_new (n : nat) (key iv : list N) : Res (list N) :=
  do _ <- assert_ (length (firstn 16 iv) =? 16)%nat;                            (* :59, try_into().unwrap() *)
  let subkey := hchacha n key (firstn 16 iv) in
  let nonce := repeat 0 12 in                                                   (* :61 *)
  do _ <- assert_ (length (skipn 4 nonce) =? length (skipn 16 iv))%nat;         (* :64, copy_from_slice *)
  let nonce := firstn 4 nonce ++ skipn 16 iv in
  new_internal Ietf subkey nonce.                                               (* :65 *)
