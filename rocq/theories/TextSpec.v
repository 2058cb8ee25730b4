(** Vocabulary of the property about error messages (C84), independent of the model. *)
From Coq Require Import NArith String Ascii.
Local Open Scope string_scope.

(** The decimal text of a number. *)
Definition digit (c : ascii) : N := N_of_ascii c - 48.
Fixpoint all_digits (s : string) : Prop :=
  match s with
  | "" => True
  | String c s' => (48 <= nat_of_ascii c <= 57) /\ all_digits s'
  end.
Fixpoint fold_digits (acc : N) (s : string) : N :=
  match s with
  | "" => acc
  | String c s' => fold_digits (10 * acc + digit c) s'
  end.
Definition no_leading_zero (s : string) : Prop :=
  match s with
  | "" => False
  | String c s' => c = "0"%char -> s' = ""
  end.
Definition decimal (s : string) (n : N) : Prop :=
  all_digits s /\ no_leading_zero s /\ fold_digits 0 s = n.

(** Visible ASCII characters and the space, without the double quote and the backslash. *)
Fixpoint printable (s : string) : Prop :=
  match s with
  | "" => True
  | String c s' =>
      (32 <= nat_of_ascii c <= 126 /\ c <> """"%char /\ c <> "\"%char) /\ printable s'
  end.

(** The lower-case hexadecimal text of a number below 256. *)
Definition hex_digits : string := "0123456789abcdef".
Definition hexadecimal (h : string) (n : nat) : Prop :=
  exists a b, n = (16 * a + b)%nat /\ (a < 16)%nat /\ (b < 16)%nat /\
    h = (if Nat.eqb a 0 then "" else substring a 1 hex_digits) ++ substring b 1 hex_digits.

(** [t] is [l] as it appears between the quotes of a message. *)
Inductive quoted_text : string -> string -> Prop :=
| QNil : quoted_text "" ""
| QSelf : forall c l t, (32 <= nat_of_ascii c <= 126 \/ 128 <= nat_of_ascii c) ->
    c <> """"%char -> c <> "\"%char -> quoted_text l t -> quoted_text (String c l) (String c t)
| QMarked : forall c l t, c = """"%char \/ c = "\"%char ->
    quoted_text l t -> quoted_text (String c l) (String "\"%char (String c t))
| QLetter : forall c x l t,
    (nat_of_ascii c = 0 /\ x = "0"%char) \/ (nat_of_ascii c = 9 /\ x = "t"%char) \/
    (nat_of_ascii c = 10 /\ x = "n"%char) \/ (nat_of_ascii c = 13 /\ x = "r"%char) ->
    quoted_text l t -> quoted_text (String c l) (String "\"%char (String x t))
| QCode : forall c h l t,
    (nat_of_ascii c < 32 \/ nat_of_ascii c = 127)%nat ->
    ~ (nat_of_ascii c = 0 \/ nat_of_ascii c = 9 \/ nat_of_ascii c = 10 \/ nat_of_ascii c = 13) ->
    hexadecimal h (nat_of_ascii c) -> quoted_text l t ->
    quoted_text (String c l) ("\u{" ++ h ++ "}" ++ t).
