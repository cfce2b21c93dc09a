(** * BindModel: how Python gives the arguments of a call to the parameters of a function (Python 3.8: the language reference, 6.3.4 "Calls"; Python/ceval.c,
    _PyEval_EvalCodeWithName).  Parameters before "/" do not occur in this project.  The functions, classes and calls themselves are in BindCode.v. *)
From Coq Require Import List Bool PArith Arith.
From Verif Require Import BindNames.
Import ListNotations.
Open Scope pname_scope.

(** The parameters of a function: names; how many of them, from the end, have default values; is there a parameter *args; parameters behind it, with "has a default value";
    is there a parameter **kw *)
Record signature : Type := Sig { s_args : list pname; s_defaults : nat; s_var : bool; s_only : list (pname * bool); s_kw : bool }.
Definition mem (a : pname) (l : list pname) : bool := existsb (Pos.eqb a) l.

Section Bind.
  Context {V : Type}.
  (** The parameters during the call: the values given (None: the default value is used), the values of *args and of **kw *)
  Record frame : Type := Frame { f_slots : list (pname * option V); f_rest : list V; f_named : list (pname * V) }.
  (** Positional arguments, from left to right *)
  Fixpoint fill (names : list pname) (vals : list V) : list (pname * option V) * list V :=
    match names, vals with
    | [], _ => ([], vals)
    | a :: names, [] => let '(l, rest) := fill names [] in ((a, None) :: l, rest)
    | a :: names, v :: vals => let '(l, rest) := fill names vals in ((a, Some v) :: l, rest)
    end.
  (** One keyword: None if the parameter already has a value; Some None if there is no such parameter *)
  Fixpoint put (a : pname) (v : V) (l : list (pname * option V)) : option (option (list (pname * option V))) :=
    match l with
    | [] => Some None
    | (b, x) :: l => if Pos.eqb a b then match x with Some _ => None | None => Some (Some ((b, Some v) :: l)) end
                     else match put a v l with Some (Some l) => Some (Some ((b, x) :: l)) | r => r end
    end.
  Fixpoint put_all (kw : bool) (keys : list (pname * V)) (l : list (pname * option V)) (named : list (pname * V)) : option (list (pname * option V) * list (pname * V)) :=
    match keys with
    | [] => Some (l, named)
    | (a, v) :: keys =>
      match put a v l with
      | None => None
      | Some (Some l) => put_all kw keys l named
      | Some None => if kw && negb (mem a (map fst named)) then put_all kw keys l (named ++ [(a, v)]) else None
      end
    end.
  (** The parameters that need a value *)
  Definition required (s : signature) : list pname :=
    firstn (length (s_args s) - s_defaults s) (s_args s) ++ map fst (filter (fun x => negb (snd x)) (s_only s)).
  Definition given (l : list (pname * option V)) (a : pname) : bool := existsb (fun x => Pos.eqb a (fst x) && match snd x with Some _ => true | None => false end) l.
  (** The call of a function; None: TypeError *)
  Definition bind (s : signature) (vals : list V) (keys : list (pname * V)) : option frame :=
    let '(slots, rest) := fill (s_args s) vals in
    match put_all (s_kw s) keys (slots ++ map (fun x => (fst x, None)) (s_only s)) [] with
    | None => None
    | Some (slots, named) =>
      if negb (s_var s) && negb (length rest =? 0) then None
      else if forallb (given slots) (required s) then Some (Frame slots rest named) else None
    end.
End Bind.
Arguments frame : clear implicits.

(** A class: its name, its parent, its methods *)
Record cclass : Type := CClass { k_name : pname; k_parent : option pname; k_methods : list (pname * signature) }.
(** What is called: a function f(...); a class c(...); a method of an object self.m(...), where self is an object of c or a class below; a method of a class c.m(self, ...);
    super().m(...), where c is the parent *)
Inductive target : Type := TFun (f : pname) | TNew (c : pname) | TMethod (c m : pname) | TStatic (c m : pname) | TSuper (c m : pname).
(** The number of positional arguments: known, or f(a, ..., *l) *)
Inductive count : Type := Exactly (n : nat) | AtLeast (n : nat).
Record call : Type := Call { c_target : target; c_count : count; c_keys : list pname }.

Section Lookup.
  Context (functions : list (pname * signature)) (classes : list cclass).
  Definition named (a : pname) (l : list (pname * signature)) : list signature := map snd (filter (fun x => Pos.eqb (fst x) a) l).
  (** The class and its parents (single inheritance; no class has more than five of them) *)
  Fixpoint line (n : nat) (c : option pname) : list cclass :=
    match n, c with
    | S n, Some c => match find (fun k => Pos.eqb (k_name k) c) classes with Some k => k :: line n (k_parent k) | None => [] end
    | _, _ => []
    end.
  Definition parents (c : pname) : list cclass := line 6 (Some c).
  (** The method of the class or the first parent that has it *)
  Definition method (c m : pname) : list signature :=
    match find (fun k => mem m (map fst (k_methods k))) (parents c) with Some k => named m (k_methods k) | None => [] end.
  (** The class and the classes below it *)
  Definition below (c : pname) : list pname := map k_name (filter (fun k => mem c (map k_name (parents (k_name k)))) classes).
  (** The functions that the call can execute *)
  Definition reached (t : target) : list signature :=
    match t with
    | TFun f => named f functions
    | TNew c => method c "__init__"
    | TMethod c m => flat_map (fun d => method d m) (below c)
    | TStatic c m | TSuper c m => method c m
    end.
  (** The object is the first argument of its methods. *)
  Definition with_object (t : target) : nat := match t with TFun _ | TStatic _ _ => 0 | TNew _ | TMethod _ _ | TSuper _ _ => 1 end.
End Lookup.
