(** Conditional compilation of the other four crates, in the vocabulary of [Cfg]: the only
    [cfg] atom they mention is [feature = "zeroize"].  The same simplifications as there.
    One thing more is recorded: a function that moves a field out of a value of type [T]
    forbids [impl Drop for T] (rustc's E0509); both are written as the declaration of one
    name, which may not be declared twice. *)
From Verif Require Export Cfg.
Local Open Scope string_scope.

(** [impl Drop for ty]; a move out of a field of [ty]. *)
Definition drop_impl (ty : string) : src := impl "Drop" ty.
Definition moved_out (ty : string) : src := impl "Drop" ty.

(** What the crates use of [cipher] ([salsa20/Cargo.toml:17], [rabbit/Cargo.toml:16],
    [hc-256/Cargo.toml:16], [rc4/Cargo.toml:16], not optional); their feature [zeroize] is
    [cipher/zeroize] ([salsa20/Cargo.toml:24], [rabbit/Cargo.toml:23],
    [hc-256/Cargo.toml:23], [rc4/Cargo.toml:23]), which is what makes [cipher::zeroize]
    exist. *)
Definition cipher_crate : src := cat [
  decls "cipher" ["AlgorithmName"; "Block"; "BlockSizeUser"; "InOutBuf"; "InnerIvInit"; "InvalidLength"; "Iv"; "IvSizeUser";
    "Key"; "KeyInit"; "KeyIvInit"; "KeySizeUser"; "ParBlocksSizeUser"; "StreamCipher"; "StreamCipherBackend";
    "StreamCipherClosure"; "StreamCipherCore"; "StreamCipherCoreWrapper"; "StreamCipherError"; "StreamCipherSeekCore";
    "array::Array"; "array::typenum::Unsigned"; "common::InnerUser"; "consts"];
  when FZeroize (decls "cipher::zeroize" ["Zeroize"; "ZeroizeOnDrop"])].

(** ** [salsa20] *)
(** [salsa20/src/lib.rs:10-154] *)
Definition salsa_lib : src := cat [
  imports "crate" "cipher" ["Block"; "BlockSizeUser"; "IvSizeUser"; "KeyIvInit"; "KeySizeUser"; "StreamCipherClosure";
    "StreamCipherCore"; "StreamCipherCoreWrapper"; "StreamCipherSeekCore"; "array::Array"; "array::typenum::Unsigned"; "consts"];  (* :12 *)
  when FZeroize (imports "crate" "cipher::zeroize" ["Zeroize"; "ZeroizeOnDrop"]);                       (* :20 *)
  imports "crate" "crate::xsalsa" ["XSalsa8"; "XSalsa12"; "XSalsa20"; "XSalsaCore"; "hsalsa"];           (* :26 *)
  decls "crate" ["Salsa8"; "Salsa12"; "Salsa20"; "Key"; "Nonce"; "XNonce"; "STATE_WORDS"; "CONSTANTS"; "SalsaCore"];
  uses "crate" ["StreamCipherCoreWrapper"; "SalsaCore"; "array::Array"; "consts"]; bound "StreamCipherCore" "SalsaCore";  (* :30-53 *)
  uses "crate" ["array::typenum::Unsigned"; "STATE_WORDS"];                                             (* :56-74 *)
  uses "crate" ["KeySizeUser"; "IvSizeUser"; "BlockSizeUser"; "KeyIvInit"; "Key"; "Nonce"; "CONSTANTS"];
  impl "BlockSizeUser" "SalsaCore"; impl "KeyIvInit" "SalsaCore";                                       (* :76-118 *)
  uses "crate" ["StreamCipherCore"; "StreamCipherClosure"; "backends"; "backends::soft"; "backends::soft::Backend"];
  impl "StreamCipherCore" "SalsaCore"; bound "StreamCipherSeekCore" "SalsaCore"; bound "BlockSizeUser" "SalsaCore";
  bound "StreamCipherBackend" "backends::soft::Backend";                                                (* :120-129 *)
  uses "crate" ["StreamCipherSeekCore"]; impl "StreamCipherSeekCore" "SalsaCore";                       (* :131-144 *)
  when FZeroize (cat [drop_impl "SalsaCore"; uses "crate" ["Zeroize"]]);                                (* :146 *)
  when FZeroize (cat [uses "crate" ["ZeroizeOnDrop"]; impl "ZeroizeOnDrop" "SalsaCore"])].              (* :153 *)
(** [salsa20/src/xsalsa.rs:3-139] *)
Definition xsalsa_rs : src := cat [
  imports "crate::xsalsa" "crate" ["CONSTANTS"; "Key"; "Nonce"; "SalsaCore"; "array::typenum::Unsigned"; "XNonce"];  (* :3 *)
  imports "crate::xsalsa" "cipher" ["BlockSizeUser"; "IvSizeUser"; "KeyIvInit"; "KeySizeUser"; "StreamCipherClosure";
    "StreamCipherCore"; "StreamCipherCoreWrapper"; "StreamCipherSeekCore"; "array::Array"; "consts"];   (* :4 *)
  imports "crate::xsalsa" "crate::backends::soft" ["quarter_round"];                                    (* :11 *)
  when FZeroize (imports "crate::xsalsa" "cipher::zeroize" ["ZeroizeOnDrop"]);                          (* :13 *)
  decls "crate::xsalsa" ["XSalsa20"; "XSalsa12"; "XSalsa8"; "XSalsaCore"]; bound "StreamCipherCore" "XSalsaCore";
  uses "crate::xsalsa" ["StreamCipherCoreWrapper"; "SalsaCore"; "array::typenum::Unsigned"; "consts"];  (* :21-28 *)
  uses "crate::xsalsa" ["KeySizeUser"; "IvSizeUser"; "BlockSizeUser"; "KeyIvInit"; "Key"; "Nonce"; "XNonce"; "hsalsa"];
  impl "BlockSizeUser" "XSalsaCore"; impl "KeyIvInit" "XSalsaCore"; bound "KeyIvInit" "SalsaCore";      (* :30-50 *)
  uses "crate::xsalsa" ["StreamCipherCore"; "StreamCipherClosure"; "StreamCipherSeekCore"]; bound "BlockSizeUser" "XSalsaCore";
  impl "StreamCipherCore" "XSalsaCore"; impl "StreamCipherSeekCore" "XSalsaCore";
  bound "StreamCipherCore" "SalsaCore"; bound "StreamCipherSeekCore" "SalsaCore";                       (* :52-76 *)
  when FZeroize (cat [uses "crate::xsalsa" ["ZeroizeOnDrop"]; impl "ZeroizeOnDrop" "XSalsaCore"]);      (* :78 *)
  decls "crate::xsalsa" ["hsalsa"]; uses "crate::xsalsa" ["CONSTANTS"; "quarter_round"; "array::Array"; "Key"]].  (* :92 *)
(** [salsa20/src/backends/soft.rs:4-70] *)
Definition salsa_soft_rs : src := let m := "crate::backends::soft" in cat [
  imports m "crate" ["Block"; "STATE_WORDS"; "SalsaCore"; "array::typenum::Unsigned"];                  (* :4 *)
  imports m "cipher" ["BlockSizeUser"; "ParBlocksSizeUser"; "StreamCipherBackend"; "StreamCipherSeekCore"; "consts"];  (* :5 *)
  decls m ["Backend"; "quarter_round"; "run_rounds"]; uses m ["SalsaCore"; "array::typenum::Unsigned"];  (* :10, :34, :49 *)
  uses m ["BlockSizeUser"; "ParBlocksSizeUser"; "consts"; "StreamCipherBackend"; "Block"; "run_rounds"; "quarter_round";
    "StreamCipherSeekCore"; "STATE_WORDS"]; bound "StreamCipherSeekCore" "SalsaCore";
  impl "StreamCipherBackend" "backends::soft::Backend"].                                                (* :12-31 *)
(** [salsa20/src/backends.rs:1], [salsa20/src/lib.rs:23-24] *)
Definition salsa20_crate : src := cat [cipher_crate; salsa_lib; mod_ "crate::xsalsa" xsalsa_rs;
  mod_ "crate::backends" (mod_ "crate::backends::soft" salsa_soft_rs)].

(** ** [rabbit] *)
(** [rabbit/src/lib.rs:11-309] *)
Definition rabbit_crate : src := cat [cipher_crate;
  imports "crate" "cipher" ["Block"; "BlockSizeUser"; "InnerIvInit"; "IvSizeUser"; "KeyInit"; "KeySizeUser"; "ParBlocksSizeUser";
    "StreamCipherBackend"; "StreamCipherClosure"; "StreamCipherCore"; "StreamCipherCoreWrapper"; "common::InnerUser"; "consts"];  (* :13 *)
  when FZeroize (imports "crate" "cipher::zeroize" ["Zeroize"; "ZeroizeOnDrop"]);                       (* :20 *)
  decls "crate" ["KEY_BYTE_LEN"; "IV_BYTE_LEN"; "WORDSIZE"; "A"; "Key"; "Iv"; "BlockSize"; "RabbitKeyOnly"; "Rabbit"; "State"];
  uses "cipher" ["Key"; "Iv"]; uses "crate" ["RabbitCore"; "RabbitKeyOnlyCore"; "StreamCipherCoreWrapper"; "consts"];
  bound "KeySizeUser" "RabbitCore"; bound "IvSizeUser" "RabbitCore";
  bound "StreamCipherCore" "RabbitKeyOnlyCore"; bound "StreamCipherCore" "RabbitCore";                  (* :24-56 *)
  decls "crate" ["State::setup_key"; "State::setup_iv"; "State::counter_update"; "State::next_state"; "State::extract"; "State::next_block"];
  uses "crate" ["KEY_BYTE_LEN"; "IV_BYTE_LEN"; "WORDSIZE"; "A"; "State::counter_update"; "State::next_state"; "State::extract"];  (* :58-203 *)
  when FZeroize (cat [drop_impl "State"; uses "crate" ["Zeroize"]]);                                    (* :205 *)
  decls "crate" ["RabbitKeyOnlyCore"]; uses "crate" ["KeySizeUser"; "KeyInit"; "BlockSizeUser"; "BlockSize"; "State::setup_key"; "Key"];
  impl "KeySizeUser" "RabbitKeyOnlyCore"; impl "KeyInit" "RabbitKeyOnlyCore"; impl "BlockSizeUser" "RabbitKeyOnlyCore";  (* :215-233 *)
  uses "crate" ["StreamCipherCore"; "StreamCipherClosure"; "Backend"]; bound "StreamCipherBackend" "Backend";
  impl "StreamCipherCore" "RabbitKeyOnlyCore"; bound "BlockSizeUser" "RabbitKeyOnlyCore";               (* :235-247 *)
  when FZeroize (cat [uses "crate" ["ZeroizeOnDrop"]; impl "ZeroizeOnDrop" "RabbitKeyOnlyCore"]);       (* :249 *)
  decls "crate" ["RabbitCore"]; uses "crate" ["common::InnerUser"; "IvSizeUser"; "InnerIvInit"; "Iv"; "State::setup_iv"];
  impl "InnerUser" "RabbitCore"; impl "IvSizeUser" "RabbitCore"; impl "InnerIvInit" "RabbitCore"; bound "InnerUser" "RabbitCore";
  moved_out "RabbitKeyOnlyCore"; impl "BlockSizeUser" "RabbitCore";                                     (* :253-275; the move: :267 *)
  (* a blanket implementation in [cipher]: a key size from the inner type *)
  impl "KeySizeUser" "RabbitCore"; bound "KeySizeUser" "RabbitKeyOnlyCore"; bound "KeyInit" "RabbitKeyOnlyCore";
  impl "StreamCipherCore" "RabbitCore"; bound "BlockSizeUser" "RabbitCore";                             (* :277-289 *)
  decls "crate" ["Backend"]; uses "crate" ["ParBlocksSizeUser"; "StreamCipherBackend"; "Block"; "State"; "State::next_block"];
  impl "StreamCipherBackend" "Backend";                                                                 (* :291-306 *)
  when FZeroize (cat [uses "crate" ["ZeroizeOnDrop"]; impl "ZeroizeOnDrop" "RabbitCore"])].             (* :308 *)

(** ** [hc-256] *)
(** [hc-256/src/lib.rs:11-218] *)
Definition hc256_crate : src := cat [cipher_crate;
  imports "crate" "cipher" ["AlgorithmName"; "Block"; "BlockSizeUser"; "IvSizeUser"; "KeyIvInit"; "KeySizeUser"; "ParBlocksSizeUser";
    "StreamCipherBackend"; "StreamCipherClosure"; "StreamCipherCore"; "StreamCipherCoreWrapper"; "consts"];  (* :13 *)
  when FZeroize (imports "crate" "cipher::zeroize" ["Zeroize"; "ZeroizeOnDrop"]);                       (* :20 *)
  decls "crate" ["TABLE_SIZE"; "TABLE_MASK"; "INIT_SIZE"; "KEY_BITS"; "KEY_WORDS"; "IV_BITS"; "IV_WORDS"; "Key"; "Iv"; "Hc256"; "Hc256Core"];
  uses "crate" ["TABLE_SIZE"; "KEY_BITS"; "IV_BITS"; "StreamCipherCoreWrapper"; "Hc256Core"]; uses "cipher" ["Key"; "Iv"];
  bound "KeySizeUser" "Hc256Core"; bound "IvSizeUser" "Hc256Core"; bound "StreamCipherCore" "Hc256Core";  (* :23-45 *)
  uses "crate" ["BlockSizeUser"; "KeySizeUser"; "IvSizeUser"; "KeyIvInit"; "consts"; "Key"; "Iv"; "INIT_SIZE"; "KEY_WORDS"; "IV_WORDS"; "Hc256Core::gen_word"];
  impl "BlockSizeUser" "Hc256Core"; impl "KeySizeUser" "Hc256Core"; impl "IvSizeUser" "Hc256Core"; impl "KeyIvInit" "Hc256Core";  (* :47-109 *)
  uses "crate" ["StreamCipherCore"; "StreamCipherClosure"; "Backend"]; impl "StreamCipherCore" "Hc256Core";
  bound "BlockSizeUser" "Hc256Core"; bound "StreamCipherBackend" "Backend";                             (* :111-120 *)
  uses "crate" ["AlgorithmName"]; impl "AlgorithmName" "Hc256Core"; impl "Debug" "Hc256Core";           (* :122-132 *)
  decls "crate" ["Hc256Core::g1"; "Hc256Core::g2"; "Hc256Core::h1"; "Hc256Core::h2"; "Hc256Core::gen_word"];
  uses "crate" ["Hc256Core::g1"; "Hc256Core::g2"; "Hc256Core::h1"; "Hc256Core::h2"; "TABLE_MASK"];      (* :134-189 *)
  when FZeroize (cat [drop_impl "Hc256Core"; uses "crate" ["Zeroize"]]);                                (* :191 *)
  when FZeroize (cat [uses "crate" ["ZeroizeOnDrop"]; impl "ZeroizeOnDrop" "Hc256Core"]);               (* :200 *)
  decls "crate" ["Backend"]; uses "crate" ["ParBlocksSizeUser"; "StreamCipherBackend"; "Block"; "Hc256Core::gen_word"];
  impl "StreamCipherBackend" "Backend"].                                                                (* :203-218 *)

(** ** [rc4] *)
(** [rc4/src/lib.rs:11-116]; here [cipher::zeroize] is named by its path (:104) and inside
    the body of [drop] (:108-110), which is there in every build. *)
Definition rc4_crate : src := cat [cipher_crate;
  imports "crate" "cipher" ["KeyInit"; "StreamCipher"; "consts"];                                       (* :11 *)
  imports "crate" "cipher" ["BlockSizeUser"; "InOutBuf"; "InvalidLength"; "Key"; "KeySizeUser"; "StreamCipherError"];  (* :13 *)
  decls "crate" ["MIN_KEY_SIZE"; "MAX_KEY_SIZE"; "Rc4"; "Rc4::s_i"; "Rc4::s_j"; "Rc4::prga"]; uses "crate" ["Rc4::s_i"; "Rc4::s_j"];  (* :16-45 *)
  uses "crate" ["KeySizeUser"; "consts"]; impl "KeySizeUser" "Rc4";                                     (* :47-49 *)
  uses "crate" ["KeyInit"; "Key"; "InvalidLength"; "MIN_KEY_SIZE"; "MAX_KEY_SIZE"]; impl "KeyInit" "Rc4"; bound "KeySizeUser" "Rc4";  (* :51-77 *)
  uses "crate" ["BlockSizeUser"]; impl "BlockSizeUser" "Rc4";                                           (* :79-81 *)
  uses "crate" ["StreamCipher"; "StreamCipherError"; "InOutBuf"; "Rc4::prga"]; impl "StreamCipher" "Rc4";  (* :83-101 *)
  when FZeroize (cat [uses "cipher::zeroize" ["ZeroizeOnDrop"]; impl "ZeroizeOnDrop" "Rc4"]);           (* :103 *)
  drop_impl "Rc4"; when FZeroize (uses "cipher::zeroize" ["Zeroize"])].                                 (* :106-116 *)

(** The crates of the workspace [Cargo.toml:3-9]. *)
Inductive member := MChacha20 | MHc256 | MRabbit | MRc4 | MSalsa20.
Definition source (m : member) : src :=
  match m with
  | MChacha20 => crate | MHc256 => hc256_crate | MRabbit => rabbit_crate | MRc4 => rc4_crate | MSalsa20 => salsa20_crate
  end.
(** The types that hold key material, and what wiping they promise by the marker trait. *)
Definition key_types (m : member) : list string :=
  match m with
  | MChacha20 => [] (* see [C48] *)
  | MHc256 => ["Hc256Core"] | MRabbit => ["RabbitKeyOnlyCore"; "RabbitCore"] | MRc4 => ["Rc4"] | MSalsa20 => ["SalsaCore"; "XSalsaCore"]
  end.
