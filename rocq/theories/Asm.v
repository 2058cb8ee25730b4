(** Model of bpfvm/src/asm.rs: the token assembler. *)
From Coq Require Import NArith String List Bool.
From Verif Require Import Libc Machine Bpf.
Import ListNotations.
Local Open Scope N_scope.

(** [Operation], bpfvm/src/asm.rs:25-36 *)
Inductive Operation :=
| Label (l : string)
| Load (m : Mode) (v : N)
| LoadIdx (m : Mode) (v : N)
| Store (m : Mode) (v : N)
| StoreIdx (m : Mode) (v : N)
| Alu (op : AluOp) (s : Src) (v : N)
| Return (s : Src) (v : N)
| JumpTo (l : string)
| Jump (op : JmpOp) (k : N) (lt lf : option string).

(** [HashMap<&str, usize>] (bpfvm/src/asm.rs:45): an association list whose most recently
    inserted binding comes first; [insert] overwrites, so [get] takes the first match. *)
Definition labelmap := list (string * N).
Definition lm_insert (m : labelmap) (l : string) (line : N) : labelmap := (l, line) :: m.
Fixpoint lm_get (m : labelmap) (l : string) : option N :=
  match m with
  | [] => None
  | (l', n) :: m' => if String.eqb l l' then Some n else lm_get m' l
  end.

(** The loop of [map_labels], bpfvm/src/asm.rs:42-58. [line] counts instructions; it cannot
    overflow a usize for a program held in memory. *)
Fixpoint map_labels_loop (prog : list Operation) (line : N) (labels : labelmap) : labelmap :=
  match prog with
  | [] => labels
  | Label l :: prog' => map_labels_loop prog' line (lm_insert labels l line)
  | _ :: prog' => map_labels_loop prog' (line + 1) labels
  end.
Definition map_labels (prog : list Operation) : labelmap := map_labels_loop prog 0 [].

(** [jmp_calc], bpfvm/src/asm.rs:60-71. The two subtractions are usize subtractions. *)
Definition jmp_calc (prof : profile) (labels : labelmap) (label : option string) (curr : N)
  : res bpf_error N :=
  match label with
  | Some l =>
      match lm_get labels l with
      | Some off => d <- sub_usize prof off curr ;; sub_usize prof d 1
      | None => Err (UnknownLabelReference l)
      end
  | None => Ok 0
  end.

(** [to_sock_filter], bpfvm/src/asm.rs:73-94 *)
Definition to_sock_filter (prof : profile) (linenum : N) (op : Operation) (labels : labelmap)
  : res bpf_error sock_filter :=
  match op with
  | JumpTo l =>
      targetline <- jmp_calc prof labels (Some l) linenum ;;
      Ok (bpf_jmp JA (as_u32 targetline) 0 0)
  | Jump op cmp ltrue lfalse =>
      lt <- jmp_calc prof labels ltrue linenum ;;
      lf <- jmp_calc prof labels lfalse linenum ;;
      Ok (bpf_jmp op cmp (as_u8 lt) (as_u8 lf))
  | Load mode val => Ok (bpf_ld mode val)
  | LoadIdx mode val => Ok (bpf_ldx mode val)
  | Store mode val => Ok (bpf_st mode val)
  | StoreIdx mode val => Ok (bpf_stx mode val)
  | Alu op src val => Ok (bpf_alu op src val)
  | Return src val => Ok (bpf_ret src val)
  | Label l => Err (UnknownLabelReference l)
  end.

(** [matches!(op, Label(_))], bpfvm/src/asm.rs:104 *)
Definition is_label (op : Operation) : bool :=
  match op with Label _ => true | _ => false end.

(** [.enumerate()], starting at [n] (bpfvm/src/asm.rs:105). *)
Fixpoint enumerate {A} (n : N) (l : list A) : list (N * A) :=
  match l with
  | [] => []
  | a :: l' => (n, a) :: enumerate (n + 1) l'
  end.

(** [compile], bpfvm/src/asm.rs:97-110 *)
Definition compile (prof : profile) (prog : list Operation) : res bpf_error (list sock_filter) :=
  let labels := map_labels prog in
  mapM (fun p => to_sock_filter prof (fst p) (snd p) labels)
       (enumerate 0 (filter (fun op => negb (is_label op)) prog)).
