(** * UseModel: reading global names in functions (Python 3: a name that is not local is looked up in the module, then in the builtins; NameError
    if it is in neither).  The functions themselves are in UseCode.v. *)
From Coq Require Import List Bool PArith.
From Verif Require Import Platform ImpNames ImpModel.
Import ListNotations.

(** A part of a function: names that are read, or a condition on flags *)
Inductive fstmt : Type :=
| FReads (names : list name)
| FIf (e : bexp) (yes no : list fstmt).
(** A function: its name, whether it is a method, the conditions under which it is defined, its parts *)
Record fbody : Type := Body { b_name : name; b_method : bool; b_when : list bexp; b_parts : list fstmt }.

Section Missing.
  Context (h : host) (globals : ns).
  (** The names of a condition *)
  Fixpoint bnames (e : bexp) : list name :=
    match e with BConst _ => [] | BName n => [n] | BNot e => bnames e | BOr a b => bnames a ++ bnames b | BHost uses _ => uses end.
  Definition absent_of (l : list name) : list name := filter (fun n => negb (has n globals)) l.
  (** The names that are not there.  Of a condition all names are taken as read. *)
  Fixpoint missing (s : fstmt) : list name :=
    match s with
    | FReads l => absent_of l
    | FIf e yes no =>
        absent_of (bnames e) ++
        match beval h e globals with
        | IOk true => flat_map missing yes
        | IOk false => flat_map missing no
        | IErr _ => []
        end
    end.
  (** The function is defined *)
  Definition is_defined (f : fbody) : bool := forallb (fun e => match beval h e globals with IOk b => b | IErr _ => false end) (b_when f).
  Definition missing_in (f : fbody) : list name := flat_map missing (b_parts f).
End Missing.
