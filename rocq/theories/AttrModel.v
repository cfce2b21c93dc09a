(** * AttrModel: reading and assigning attributes of objects (Python 3: self.a is looked up in the object, then in its class and the parents of the class;
    AttributeError if it is in none of them).  The classes themselves are in AttrCode.v.
    Simplifications: attributes of other objects than self are not followed; an object passed to other code is not changed by it (in a constructor only
    ptrace/debugger/process.py 177 does it, and SyscallState.__init__ only stores the process). *)
From Coq Require Import List Bool PArith.
From Verif Require Import AttrNames.
Import ListNotations.
Open Scope attr_scope.

(** Conditions on flags of the platform *)
Inductive fexp : Type := FTrue | FFlag (n : attr) | FNot (e : fexp) | FAnd (a b : fexp) | FOr (a b : fexp).
(** What a method does with the attributes of its object *)
Inductive stmt : Type :=
| ASkip
| ASeq (s t : stmt)
| ARead (a : attr)               (* self.a *)
| ASet (a : attr)                (* self.a = ... *)
| ACall (m : attr)               (* self.m(...), after the read of m *)
| ASuper (c m : attr)            (* c.m(self, ...), or super().m(...) where c is the parent *)
| AOther                         (* anything else, which may raise an exception *)
| AIf (e : fexp) (yes no : stmt) (* if FLAG: yes else: no *)
| AChoice (a b : stmt)           (* another branch *)
| ALoop (s : stmt)
| ATry (s handler : stmt)
| AFinally (s last : stmt)
| AReturn
| ARaise
| ABreak.
Definition block (l : list stmt) : stmt := fold_right ASeq ASkip l.
Inductive member : Type := MAttr (a : attr) | MMethod (m : attr) (body : stmt).
(** A class: its name, its parent, its members with the conditions under which they are defined *)
Record class : Type := Class { c_name : attr; c_parent : option attr; c_members : list (fexp * member) }.
(** The attributes of an object *)
Definition env := list attr.
(** How a statement ends: at its end, by return, by an exception, by break, by AttributeError on self *)
Inductive outcome : Type := Done (e : env) | Return (e : env) | Raise (e : env) | Break (e : env) | Missing (a : attr).

Definition mem (a : attr) (l : list attr) : bool := existsb (Pos.eqb a) l.
Fixpoint feval (flags : attr -> bool) (e : fexp) : bool :=
  match e with FTrue => true | FFlag n => flags n | FNot e => negb (feval flags e) | FAnd a b => feval flags a && feval flags b | FOr a b => feval flags a || feval flags b end.

Section Objects.
  Context (flags : attr -> bool) (table : list class).

  Definition find_class (c : attr) : option class := find (fun k => Pos.eqb (c_name k) c) table.
  (** The class and its parents (single inheritance; no class here has more than five of them) *)
  Fixpoint line (n : nat) (c : option attr) : list class :=
    match n, c with
    | S n, Some c => match find_class c with Some k => k :: line n (c_parent k) | None => [] end
    | _, _ => []
    end.
  Definition parents (c : attr) : list class := line 6 (Some c).
  Definition members (c : attr) : list member :=
    map snd (filter (fun x => feval flags (fst x)) (flat_map c_members (parents c))).
  Definition has_name (a : attr) (x : member) : bool := match x with MAttr b => Pos.eqb a b | MMethod m _ => Pos.eqb a m end.
  (** The body of the method, of the class or the first parent that has it *)
  Definition method (c m : attr) : option stmt :=
    match find (has_name m) (members c) with Some (MMethod _ body) => Some body | _ => None end.
  (** self.a exists, for an object of class [c] with the attributes [e] *)
  Definition there (c a : attr) (e : env) : bool := mem a e || existsb (has_name a) (members c).

  Definition leave (o : outcome) : outcome := match o with Return e => Done e | o => o end.
  Definition again (o : outcome) : option env := match o with Done e | Break e => Some e | _ => None end.
  Definition attrs_of (o : outcome) : option env := match o with Done e | Return e | Raise e | Break e => Some e | Missing _ => None end.
  Definition change (o : outcome) (e : env) : outcome :=
    match o with Done _ => Done e | Return _ => Return e | Raise _ => Raise e | Break _ => Break e | Missing a => Missing a end.
  Definition is_done (o : outcome) : bool := match o with Done _ => true | _ => false end.
  Definition is_raise (o : outcome) : bool := match o with Raise _ => true | _ => false end.

  (** [run c s e o]: for an object of class [c] with the attributes [e], the statement can end with [o] *)
  Inductive run (c : attr) : stmt -> env -> outcome -> Prop :=
  | run_skip e : run c ASkip e (Done e)
  | run_seq s t e e1 o : run c s e (Done e1) -> run c t e1 o -> run c (ASeq s t) e o
  | run_seq_stop s t e o : run c s e o -> is_done o = false -> run c (ASeq s t) e o
  | run_read a e : there c a e = true -> run c (ARead a) e (Done e)
  | run_missing a e : there c a e = false -> run c (ARead a) e (Missing a)
  | run_set a e : run c (ASet a) e (Done (a :: e))
  | run_call m body e o : method c m = Some body -> run c body e o -> run c (ACall m) e (leave o)
  | run_call_value m e : method c m = None -> run c (ACall m) e (Done e)
  | run_call_value_raise m e : method c m = None -> run c (ACall m) e (Raise e)
  | run_super k m body e o : method k m = Some body -> run c body e o -> run c (ASuper k m) e (leave o)
  | run_super_outside k m e : method k m = None -> run c (ASuper k m) e (Done e)
  | run_super_outside_raise k m e : method k m = None -> run c (ASuper k m) e (Raise e)
  | run_other e : run c AOther e (Done e)
  | run_other_raise e : run c AOther e (Raise e)
  | run_if b yes no e o : run c (if feval flags b then yes else no) e o -> run c (AIf b yes no) e o
  | run_left s t e o : run c s e o -> run c (AChoice s t) e o
  | run_right s t e o : run c t e o -> run c (AChoice s t) e o
  | run_loop_end s e : run c (ALoop s) e (Done e)
  | run_loop_again s e o1 e1 o : run c s e o1 -> again o1 = Some e1 -> run c (ALoop s) e1 o -> run c (ALoop s) e o
  | run_loop_stop s e o : run c s e o -> again o = None -> run c (ALoop s) e o
  | run_try s h e o : run c s e o -> is_raise o = false -> run c (ATry s h) e o
  | run_except s h e e1 o : run c s e (Raise e1) -> run c h e1 o -> run c (ATry s h) e o
  | run_finally s l e o e1 e2 : run c s e o -> attrs_of o = Some e1 -> run c l e1 (Done e2) -> run c (AFinally s l) e (change o e2)
  | run_finally_stop s l e o e1 o2 : run c s e o -> attrs_of o = Some e1 -> run c l e1 o2 -> is_done o2 = false -> run c (AFinally s l) e o2
  | run_finally_missing s l e a : run c s e (Missing a) -> run c (AFinally s l) e (Missing a)
  | run_return e : run c AReturn e (Return e)
  | run_raise e : run c ARaise e (Raise e)
  | run_break e : run c ABreak e (Break e).
End Objects.
