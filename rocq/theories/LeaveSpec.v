(** * LeaveSpec: what is left of a process that is let go. *)
From Coq Require Import ZArith List Bool.
From Verif Require Import PyBase Platform CallModel MemModel MemSpec StructModel RegModel BreakModel BreakSpec LeaveModel.
Import ListNotations.
Open Scope Z_scope.

(** What a user does with a process. *)
Inductive use : Type :=
| UCreate (refused : exn) (address : Z) (size : option Z)
| URemove (alive : bool) (refused : exn) (id : nat) (set_ip : bool)
| UDropBreakpoint (alive : bool) (refused : exn) (id : nat)
| UDetach (reply : res unit)
| UDrop (reply : res unit).
Definition use1 (E : penv) (K : rkernel) (s : lstate) (u : use) : lstate :=
  match u with
  | UCreate refused a n => fst (createBreakpoint E refused a n s)
  | URemove alive refused id ip => fst (LeaveModel.desinstall E K alive refused id ip s)
  | UDropBreakpoint alive refused id => fst (breakpoint_del E K alive refused id s)
  | UDetach reply => fst (detach reply s)
  | UDrop reply => fst (process_del reply s)
  end.
Definition uses (E : penv) (K : rkernel) (s : lstate) (l : list use) : lstate := fold_left (use1 E K) l s.
Definition memory (s : lstate) (x : Z) : option byte := k_byte (s_mem (b_mem (l_b s))) x.
(** a process just attached, running and without breakpoints *)
Definition attached_now (s : lstate) : Prop :=
  l_attached s = true /\ l_registered s = true /\ l_detaches s = 0%nat /\ b_running (l_b s) = true /\ no_breakpoints (l_b s).
(** creating and removing breakpoints of a process object that is alive *)
Definition plain_use (a : action) : use :=
  match a with Create x n => UCreate EProcessError x n | Remove id => URemove true EProcessError id false end.
