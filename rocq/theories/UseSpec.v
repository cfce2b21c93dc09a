(** * UseSpec: the names that the functions may not find. *)
From Coq Require Import List Bool PArith.
From Verif Require Import Platform ImpNames ImpModel UseModel.
Import ListNotations.
Open Scope name_scope.

(** None on Linux.  OpenBSD has no constant PTRACE_SYSCALL, the BSDs and macOS no THREAD_TRACE_FLAGS. *)
Definition expected_missing (p : platform) (m f : name) : list name :=
  if Pos.eqb m "ptrace.binding.func" && Pos.eqb f "ptrace_syscall" && match p_os p with OpenBSD => true | _ => false end then ["PTRACE_SYSCALL"]
  else if Pos.eqb m "ptrace.debugger.debugger" && Pos.eqb f "PtraceDebugger._waitpid" && negb (running_linux p) then ["THREAD_TRACE_FLAGS"]
  else [].
(** Another definition of the function [f] that is executed *)
Definition defined_as (h : host) (globals : ns) (fs : list fbody) (f : name) : Prop :=
  exists b, In b fs /\ b_name b = f /\ is_defined h globals b = true.
(** A run of a function can read the name [n]: conditions on flags are followed *)
Inductive reads (h : host) (globals : ns) (n : name) : list fstmt -> Prop :=
| reads_here names rest : In n names -> reads h globals n (FReads names :: rest)
| reads_condition e yes no rest : In n (bnames e) -> reads h globals n (FIf e yes no :: rest)
| reads_yes e yes no rest : beval h e globals = IOk true -> reads h globals n yes -> reads h globals n (FIf e yes no :: rest)
| reads_no e yes no rest : beval h e globals = IOk false -> reads h globals n no -> reads h globals n (FIf e yes no :: rest)
| reads_later s rest : reads h globals n rest -> reads h globals n (s :: rest).
