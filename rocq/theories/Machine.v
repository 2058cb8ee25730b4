(** Outcomes and machine arithmetic of the Rust code. *)
From Coq Require Import NArith List Bool.
Import ListNotations.
Local Open Scope N_scope.

(** Build profile: [Debug] has overflow checks (a panic), [Release] wraps.
    Cargo.toml and bpfvm/Cargo.toml set neither, so both are in use. *)
Inductive profile := Debug | Release.

(** How a thread can be ended by a refused system call (environment, see Kernel.v). *)
Inductive death := DeathProcess | DeathThread | DeathSigsys.

(** A Rust computation returning [Result<A, E>]: [Ok]/[Err] are the two values, [Panic] is
    unwinding, [Died] is being killed inside a system call made by the computation. *)
Inductive res (E A : Type) :=
| Ok (a : A)
| Err (e : E)
| Panic
| Died (d : death).
Arguments Ok {E A} a.
Arguments Err {E A} e.
Arguments Panic {E A}.
Arguments Died {E A} d.

(** The [?] operator. *)
Definition bind {E A B} (r : res E A) (k : A -> res E B) : res E B :=
  match r with
  | Ok a => k a
  | Err e => Err e
  | Panic => Panic
  | Died d => Died d
  end.
Notation "x <- r ;; k" := (bind r (fun x => k))
  (at level 61, r at next level, right associativity).

(** The [From] conversion of errors performed by [?]. *)
Definition map_err {E F A} (f : E -> F) (r : res E A) : res F A :=
  match r with
  | Ok a => Ok a
  | Err e => Err (f e)
  | Panic => Panic
  | Died d => Died d
  end.

(** [iter.map(f).collect::<Result<Vec<_>>>()]: left to right, stops at the first failure. *)
Fixpoint mapM {E A B} (f : A -> res E B) (l : list A) : res E (list B) :=
  match l with
  | [] => Ok []
  | a :: l' => b <- f a ;; bs <- mapM f l' ;; Ok (b :: bs)
  end.

(** * Machine integers *)
Definition u8_mod : N := 2 ^ 8.
Definition u16_mod : N := 2 ^ 16.
Definition u32_mod : N := 2 ^ 32.
(** x86_64: usize is 64 bits wide. *)
Definition usize_mod : N := 2 ^ 64.

(** [as u8], [as u16], [as u32] casts. *)
Definition as_u8 (n : N) : N := n mod u8_mod.
Definition as_u16 (n : N) : N := n mod u16_mod.
Definition as_u32 (n : N) : N := n mod u32_mod.

(** Bitwise [!x] on u32 / i32 bit patterns. *)
Definition not_u32 (n : N) : N := N.lxor n 0xffffffff.

(** [a + b] on u32. *)
Definition add_u32 {E} (prof : profile) (a b : N) : res E N :=
  if a + b <? u32_mod then Ok (a + b)
  else match prof with Debug => Panic | Release => Ok ((a + b) mod u32_mod) end.

(** [a - b] on an unsigned type of modulus [m]. *)
Definition sub_mod {E} (m : N) (prof : profile) (a b : N) : res E N :=
  if b <=? a then Ok (a - b)
  else match prof with Debug => Panic | Release => Ok ((a + m - b) mod m) end.
Definition sub_u32 {E} := @sub_mod E u32_mod.
Definition sub_usize {E} := @sub_mod E usize_mod.

(** [a * b] on u32. *)
Definition mul_u32 {E} (prof : profile) (a b : N) : res E N :=
  if a * b <? u32_mod then Ok (a * b)
  else match prof with Debug => Panic | Release => Ok ((a * b) mod u32_mod) end.

(** [a / b], [a % b]: a zero divisor panics in every profile. *)
Definition div_u32 {E} (a b : N) : res E N := if b =? 0 then Panic else Ok (a / b).
Definition rem_u32 {E} (a b : N) : res E N := if b =? 0 then Panic else Ok (a mod b).

(** [a << b], [a >> b] on u32: a shift of 32 or more panics under overflow checks, and is
    reduced modulo 32 without them. *)
Definition shl_u32 {E} (prof : profile) (a b : N) : res E N :=
  if b <? 32 then Ok (N.shiftl a b mod u32_mod)
  else match prof with
       | Debug => Panic
       | Release => Ok (N.shiftl a (b mod 32) mod u32_mod)
       end.
Definition shr_u32 {E} (prof : profile) (a b : N) : res E N :=
  if b <? 32 then Ok (N.shiftr a b)
  else match prof with
       | Debug => Panic
       | Release => Ok (N.shiftr a (b mod 32))
       end.
(** Slice and array access: [l[i]] panics out of bounds. *)
Definition index {E A} (l : list A) (i : N) : res E A :=
  if i <? N.of_nat (length l)
  then match nth_error l (N.to_nat i) with Some a => Ok a | None => Panic end
  else Panic.

(** The list with its [i]-th element replaced (the write of bpfvm/src/vm.rs:139,142). *)
Fixpoint list_set {A} (l : list A) (i : nat) (v : A) : list A :=
  match l, i with
  | [], _ => []
  | _ :: l', O => v :: l'
  | a :: l', S i' => a :: list_set l' i' v
  end.

(** [l[i] = v]. *)
Definition index_set {E A} (l : list A) (i : N) (v : A) : res E (list A) :=
  if i <? N.of_nat (length l) then Ok (list_set l (N.to_nat i) v) else Panic.
