(** Model of [hc-256/src/lib.rs].  [ck] is [overflow-checks], [usz] the number of values
    of [usize]; table accesses with run-time indices are checked. *)
From Verif Require Export Word Res.

(** [hc-256/src/lib.rs:23-29] *)
Definition TABLE_SIZE : N := 1024.
Definition TABLE_MASK : N := 1023.
Definition INIT_SIZE : N := 2660.
Definition KEY_WORDS : N := 8.
Definition IV_WORDS : N := 8.

(** [hc-256/src/lib.rs:41-45] *)
Record hc := { h_p : list N; h_q : list N; h_idx : N }.

(** [hc-256/src/lib.rs:61-63], [:65-67] *)
Definition f1 (x : N) : N := N.lxor (N.lxor (rotr32 x 7) (rotr32 x 18)) (N.shiftr x 3).
Definition f2 (x : N) : N := N.lxor (N.lxor (rotr32 x 17) (rotr32 x 19)) (N.shiftr x 10).

(** [usize::wrapping_sub] *)
Definition wsub (usz a b : N) : N := (a + usz - b) mod usz.

(** [hc-256/src/lib.rs:136-139] on [qtable], [:142-145] on [ptable]. *)
Definition g_ (tbl : list N) (x y : N) : Res N :=
  do t <- idx tbl (N.land (N.lxor x y) TABLE_MASK);
  Ok (add32 (N.lxor (rotr32 x 10) (rotr32 y 23)) t).
(** [hc-256/src/lib.rs:148-153] on [qtable], [:156-161] on [ptable]. *)
Definition h_ (ck : bool) (tbl : list N) (x : N) : Res N :=
  do a <- idx tbl (N.land x 0xff);
  do i1 <- add_ck ck M32 256 (N.land (N.shiftr x 8) 0xff); do b <- idx tbl i1;
  do i2 <- add_ck ck M32 512 (N.land (N.shiftr x 16) 0xff); do c <- idx tbl i2;
  do i3 <- add_ck ck M32 768 (N.land (N.shiftr x 24) 0xff); do d <- idx tbl i3;
  Ok (add32 (add32 (add32 a b) c) d).
Definition g1 (s : hc) := g_ (h_q s).
Definition g2 (s : hc) := g_ (h_p s).
Definition h1 (ck : bool) (s : hc) := h_ ck (h_q s).
Definition h2 (ck : bool) (s : hc) := h_ ck (h_p s).

(** [hc-256/src/lib.rs:163-188]; the [self.idx] update at [:167] precedes the table
    accesses. *)
Definition gen_word (ck : bool) (usz : N) (s : hc) : Res (N * hc) :=
  let i := h_idx s in                                                     (* :164 *)
  let j := N.land (h_idx s) TABLE_MASK in                                 (* :165 *)
  let at_ d := N.land (wsub usz j d) TABLE_MASK in                        (* j.wrapping_sub(d) & TABLE_MASK *)
  do nx <- add_ck ck M32 (h_idx s) 1;
  let s := {| h_p := h_p s; h_q := h_q s; h_idx := N.land nx (2048 - 1) |} in   (* :167 *)
  if i <? 1024 then
    do a <- idx (h_p s) j; do b <- idx (h_p s) (at_ 10);
    do x <- idx (h_p s) (at_ 3); do y <- idx (h_p s) (at_ 1023);
    do g <- g1 s x y;
    do p <- set_idx (h_p s) j (add32 (add32 a b) g);                      (* :170-175 *)
    let s := {| h_p := p; h_q := h_q s; h_idx := h_idx s |} in
    do x <- idx (h_p s) (at_ 12); do h <- h1 ck s x; do b <- idx (h_p s) j;
    Ok (N.lxor h b, s)                                                    (* :177 *)
  else
    do a <- idx (h_q s) j; do b <- idx (h_q s) (at_ 10);
    do x <- idx (h_q s) (at_ 3); do y <- idx (h_q s) (at_ 1023);
    do g <- g2 s x y;
    do q <- set_idx (h_q s) j (add32 (add32 a b) g);                      (* :179-184 *)
    let s := {| h_p := h_p s; h_q := q; h_idx := h_idx s |} in
    do x <- idx (h_q s) (at_ 12); do h <- h2 ck s x; do b <- idx (h_q s) j;
    Ok (N.lxor h b, s).                                                   (* :186 *)

(** One little-endian word of [key]/[iv]: [hc-256/src/lib.rs:77-80], [:84-87].  The index
    arithmetic [4 * i + c] has [i < 8] and is written exactly. *)
Definition le_word (l : list N) (i : N) : Res N :=
  do a <- idx l (4 * i); do b <- idx l (4 * i + 1); do c <- idx l (4 * i + 2); do d <- idx l (4 * i + 3);
  Ok (N.lor (N.lor (N.lor (N.land a 0xff) (N.shiftl (N.land b 0xff) 8))
        (N.shiftl (N.land c 0xff) 16)) (N.shiftl (N.land d 0xff) 24)).
(** Body of the loop at [:90-96]. *)
Definition expand_step (ck : bool) (usz : N) (i : nat) (data : list N) : Res (list N) :=
  let i := N.of_nat i in
  do i2 <- sub_ck ck usz i 2; do a <- idx data i2;
  do i7 <- sub_ck ck usz i 7; do b <- idx data i7;
  do i15 <- sub_ck ck usz i 15; do c <- idx data i15;
  do i16 <- sub_ck ck usz i 16; do d <- idx data i16;
  set_idx data i (add32 (add32 (add32 (add32 (f2 a) b) (f1 c)) d) (as_u32 i)).
(** [&data[lo..lo + n]]: panics when out of range. *)
Definition slice_ck (l : list N) (lo n : nat) : Res (list N) :=
  do _ <- assert_ (lo + n <=? length l)%nat; Ok (slice l lo n).

(** [hc-256/src/lib.rs:60-108] *)
Definition hc_new (ck : bool) (usz : N) (key iv : list N) : Res hc :=
  let data := repeat 0 (N.to_nat INIT_SIZE) in                                       (* :74 *)
  do data <- for_ (seq 0 (N.to_nat KEY_WORDS)) (fun i data => do w <- le_word key (N.of_nat i); set_idx data (N.of_nat i) w) data;   (* :76-81 *)
  do data <- for_ (seq 0 (N.to_nat IV_WORDS)) (fun i data => do w <- le_word iv (N.of_nat i); set_idx data (N.of_nat i + KEY_WORDS) w) data;  (* :83-88 *)
  do data <- for_ (seq 16 2644) (expand_step ck usz) data;                           (* :90-96 *)
  do p <- slice_ck data 512 1024;                                                    (* :98 *)
  do q <- slice_ck data 1536 1024;                                                   (* :99 *)
  let s := {| h_p := p; h_q := q; h_idx := 0 |} in                                   (* :101 *)
  for_ (seq 0 4096) (fun _ s => do (_, s) <- gen_word ck usz s; Ok s) s.             (* :103-105 *)

(** [hc-256/src/lib.rs:113-115] *)
Definition hc_remaining (s : hc) : option N := None.
(** [hc-256/src/lib.rs:215-217], [k] blocks of 4 bytes ([ParBlocksSize = U1]). *)
Fixpoint hc_write (ck : bool) (usz : N) (k : nat) (s : hc) : Res (list N * hc) :=
  match k with
  | O => Ok ([], s)
  | S k' => do (w, s1) <- gen_word ck usz s;
            do (o, s2) <- hc_write ck usz k' s1; Ok (to_le 4 w ++ o, s2)
  end.
