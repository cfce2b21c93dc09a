(** * SessionModel: what gdb.py does with breakpoints when the traced process stops (gdb.py, cont and step). *)
From Coq Require Import ZArith List Bool.
From Verif Require Import PyBase Platform CallModel MemModel StructModel RegModel BreakModel.
Import ListNotations.
Open Scope Z_scope.

Section Session.
  Context (E : penv) (K : rkernel).
  Let p := e_p E.

  (** gdb.py 193-202, after a SIGTRAP: the breakpoint that was found and removed, if any.  The message is left out (see GdbModel,
      where the same calls are recorded); there is one process. *)
  Definition hit_breakpoint : B (option nat) :=
    fun st =>
      let (rg, r) := getInstrPointer K p (b_regs st) in
      let st := with_regs st rg in
      match r with
      | Err e => (st, Err e)
      | Ok ip =>
          let ip := if is_powerpc (p_cpu p) then ip else ip - 1 in
          match findBreakpoint ip st with
          | None => (st, Ok None)
          | Some id =>
              match desinstall E K id true st with
              | (st, Err e) => (st, Err e)
              | (st, Ok _) => (st, Ok (Some id))
              end
          end
      end.

  (** gdb.py 716-727, delete: the breakpoint that was found and removed, if any *)
  Definition delete_breakpoint (address : Z) : B (option nat) :=
    fun st =>
      match findBreakpoint address st with
      | None => (st, Ok None)
      | Some id =>
          match desinstall E K id false st with
          | (st, Err e) => (st, Err e)
          | (st, Ok _) => (st, Ok (Some id))
          end
      end.

  (** gdb.py 581-592, step (also until) without single step: the breakpoint is set, the process runs until a SIGTRAP ([run] is
      what becomes of it) and the breakpoint is removed.  Other ends of waitSignals and the handler 593-596 are in GdbModel. *)
  Definition step_over (address : Z) (size : option Z) (run : bstate -> bstate) : B unit :=
    fun st =>
      match createBreakpoint E address size st with
      | (st, Err e) => (st, Err e)
      | (st, Ok id) => desinstall E K id true (run st)
      end.
End Session.
