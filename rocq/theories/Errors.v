(** Model of the error messages: the [Display] implementations that thiserror derives from the
    [#[error(..)]] attributes in bpfvm/src/errors.rs and src/errors.rs.  Labels are byte strings
    here; characters from 128 on are printed as they are (Rust escapes the unprintable ones among
    them, by tables of the Unicode standard). *)
From Coq Require Import NArith String Ascii List Bool DecimalString DecimalN.
From Verif Require Import Bpf Promises Filters.
Import ListNotations.
Local Open Scope string_scope.

(** [{:?}] of usize, u16 and u32: decimal digits (core::fmt::num). *)
Definition show_number (n : N) : string := NilZero.string_of_uint (N.to_uint n).

(** Lower-case hexadecimal digits of a number below 256, without leading zeros, as printed by
    [\u{..}] in core::char::EscapeUnicode. *)
Definition hex_digit (n : nat) : ascii := nth n (list_ascii_of_string "0123456789abcdef") "0"%char.
Definition show_hex (n : nat) : string :=
  if Nat.ltb n 16 then String (hex_digit n) ""
  else String (hex_digit (Nat.div n 16)) (String (hex_digit (Nat.modulo n 16)) "").

(** One character of [{:?}] of a string: core::char::methods::escape_debug_ext, with double quotes
    escaped and single quotes not (core::fmt, [impl Debug for str]). *)
Definition escape_char (c : ascii) : string :=
  let n := nat_of_ascii c in
  if Nat.eqb n 0 then "\0"
  else if Nat.eqb n 9 then "\t"
  else if Nat.eqb n 10 then "\n"
  else if Nat.eqb n 13 then "\r"
  else if Nat.eqb n 34 then String "\" (String c "")
  else if Nat.eqb n 92 then "\\"
  else if Nat.ltb n 32 || Nat.eqb n 127 then "\u{" ++ show_hex n ++ "}"
  else String c "".
Fixpoint escape (s : string) : string :=
  match s with
  | "" => ""
  | String c s' => escape_char c ++ escape s'
  end.
(** [{:?}] of a String *)
Definition show_string (s : string) : string := """" ++ escape s ++ """".

(** [{:?}] of a Promise: the derived [Debug], src/promises.rs:21-46 *)
Definition show_promise (p : Promise) : string :=
  match p with
  | Default => "Default" | StdIO => "StdIO" | RPath => "RPath" | WPath => "WPath"
  | CPath => "CPath" | DPath => "DPath" | FLock => "FLock" | FAttr => "FAttr"
  | Inet => "Inet" | Unix => "Unix" | Dns => "Dns" | Tty => "Tty" | RecvFd => "RecvFd"
  | SendFd => "SendFd" | Proc => "Proc" | Id => "Id" | Chown => "Chown" | SetTime => "SetTime"
  | ProtExec => "ProtExec" | Exec => "Exec" | VmInfo => "VmInfo" | TmpPath => "TmpPath"
  | Unveil => "Unveil"
  end.

(** [Display for bpfvm::Error], bpfvm/src/errors.rs:21-39.  [DataConversionError] is never
    constructed and not modelled. *)
Definition bpf_message (e : bpf_error) : string :=
  match e with
  | ProgramTooLong len => "Program len is bigger than limit (u16::MAX); " ++ show_number len ++ "."
  | InvalidInstructionCode code =>
      "Unsupported BPF instruction code (with flags): " ++ show_number code ++ "."
  | UnsupportedInstruction code => "Unsupported BPF Instruction; " ++ show_number code ++ "."
  | UnsupportedReturn code => "Unsupported Return value; " ++ show_number code ++ "."
  | UnsupportedDataOffset => "Unsupported ABS offset type."
  | UnknownInstruction code => "Unknown BPF Instruction; " ++ show_number code ++ "."
  | UnknownLabelReference l => "Unknown label reference; " ++ show_string l ++ "."
  end.

(** [Display for libpledge::Error], src/errors.rs:23-31.  [os] is the text of the C library for an
    error number (strerror_r), to which [Display for std::io::Error] adds the number. *)
Definition pledge_message (os : N -> string) (e : pledge_error) : string :=
  match e with
  | UndefinedPromise p => "Promise " ++ show_promise p ++ " is not implemented."
  | SysErr errno => os errno ++ " (os error " ++ show_number errno ++ ")"
  | BPFErr e => bpf_message e
  end.
