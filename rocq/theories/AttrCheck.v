(** * AttrCheck: a decision procedure used in the proofs about AttrModel.v: every method of a class has a contract, attributes that are there when it is called and
    attributes that are there when it has returned.  Flags that are not in [known] can have either value. *)
From Coq Require Import List Bool PArith.
From Verif Require Import AttrNames AttrModel AttrCode AttrSpec.
Import ListNotations.
Open Scope attr_scope.

Definition known := list (attr * bool).
Definition value (k : known) (n : attr) : option bool := option_map snd (find (fun x => Pos.eqb (fst x) n) k).
Fixpoint keval (k : known) (e : fexp) : option bool :=
  match e with
  | FTrue => Some true
  | FFlag n => value k n
  | FNot e => option_map negb (keval k e)
  | FAnd a b => match keval k a, keval k b with Some false, _ | _, Some false => Some false | Some true, Some true => Some true | _, _ => None end
  | FOr a b => match keval k a, keval k b with Some true, _ | _, Some true => Some true | Some false, Some false => Some false | _, _ => None end
  end.
Definition agrees (k : known) (flags : attr -> bool) : Prop := forall n b, In (n, b) k -> flags n = b.
Definition to_flags (k : known) (n : attr) : bool := match value k n with Some b => b | None => false end.
(** The members of the class do not depend on other flags *)
Definition decided (k : known) (table : list class) (c : attr) : bool :=
  forallb (fun x => match keval k (fst x) with Some _ => true | None => false end) (flat_map c_members (parents table c)).

Definition contract := (attr * attr * (env * env))%type.
Definition subset (a b : list attr) : bool := forallb (fun x => mem x b) a.
Definition common (a b : option env) : option env :=
  match a, b with Some a, Some b => Some (filter (fun x => mem x b) a) | None, b => b | a, None => a end.

Section Check.
  Context (k : known) (table : list class) (contracts : list contract) (c : attr).
  Definition contract_of (s m : attr) : option (env * env) :=
    option_map snd (find (fun x => Pos.eqb (fst (fst x)) s && Pos.eqb (snd (fst x)) m) contracts).
  Definition check_call (s m : attr) (e : env) : option (option env) :=
    if decided k table s then
      match method (to_flags k) table s m with
      | None => Some (Some e)
      | Some _ => match contract_of s m with Some (pre, post) => if subset pre e then Some (Some (post ++ e)) else None | None => None end
      end
    else None.
  (** None: an attribute may be missing.  Some None: the end is not reached. *)
  Fixpoint check (post : env) (s : stmt) (e : env) : option (option env) :=
    match s with
    | ASkip | AOther => Some (Some e)
    | ASeq s t => match check post s e with Some (Some e1) => check post t e1 | r => r end
    | ARead a => if there (to_flags k) table c a e then Some (Some e) else None
    | ASet a => Some (Some (if mem a e then e else a :: e))
    | ACall m => check_call c m e
    | ASuper p m => check_call p m e
    | AIf b yes no =>
        match keval k b with
        | Some true => check post yes e
        | Some false => check post no e
        | None => match check post yes e, check post no e with Some a, Some b => Some (common a b) | _, _ => None end
        end
    | AChoice s t => match check post s e, check post t e with Some a, Some b => Some (common a b) | _, _ => None end
    | ALoop s => match check post s e with Some _ => Some (Some e) | None => None end
    | ATry s h => match check post s e, check post h e with Some a, Some b => Some (common a b) | _, _ => None end
    | AFinally s l => match check post s e, check post l e with Some a, Some (Some _) => Some a | _, _ => None end
    | AReturn => if subset post e then Some None else None
    | ARaise | ABreak => Some None
    end.
  Definition check_contract (x : contract) : bool :=
    let '(s, m, (pre, post)) := x in
    decided k table s &&
    match method (to_flags k) table s m with
    | None => true
    | Some body => match check post body pre with Some (Some e) => subset post e | Some None => true | None => false end
    end.
  Definition check_class : bool := decided k table c && forallb check_contract contracts.
End Check.
