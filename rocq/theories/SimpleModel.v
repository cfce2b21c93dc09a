(** * SimpleModel: examples/simple_dbg.py, the smallest debugger. *)
From Coq Require Import ZArith List Ascii String Bool.
From Verif Require Import PyBase PyInt Platform DbgModel SigModel ToolsModel.
Import ListNotations.
Open Scope Z_scope.

(** What is written: print(), print(file=stderr), logging.error() *)
Inductive note : Type := Printed (t : text) | Stderr (t : text) | Logged (t : text).
(** The debugger and what was written so far, latest first. *)
Definition SS (A : Type) : Type := dstate * list note -> (dstate * list note) * out A.
Definition sret {A} (a : A) : SS A := fun s => (s, Ret a).
Definition sthrow {A} (x : dexn) : SS A := fun s => (s, Raise x).
Definition sbind {A B} (m : SS A) (f : A -> SS B) : SS B :=
  fun s => match m s with (s, Ret a) => f a s | (s, Raise x) => (s, Raise x) end.
Notation "x <+- m ; f" := (sbind m (fun x => f)) (at level 100, m at level 100, f at level 200, right associativity).
Definition say (n : note) : SS unit := fun s => ((fst s, n :: snd s), Ret tt).
Definition sdbg {A} (m : D A) : SS A := fun s => let '(d, r) := m (fst s) in ((d, snd s), r).
Definition sres {A} (r : res A) : SS A := fun s => (s, match r with Ok a => Ret a | Err e => Raise (XErr e) end).

Section Simple.
  (** [regs]: the lines of ptrace.tools.dumpRegs for the registers (RegModel.dumpRegs) or the exception of getregs();
      [error_text]: str() of a PtraceError; [create]: createChild(arguments, False, None) *)
  Context (p : platform) (ns : namespace) (K : dkernel) (fuel : nat).
  Context (regs : res (list text)) (error_text : exn -> text) (create : list text -> res Z).
  Context (cwd : text) (env_path : option text) (executable : text -> bool).

  (** ptrace/debugger/process.py 712-719 *)
  Fixpoint log_lines (l : list text) : SS unit :=
    match l with [] => sret tt | t :: l => _ <+- say (Logged t); log_lines l end.
  Definition process_dumpRegs : SS unit :=
    match regs with
    | Ok lines => log_lines lines
    | Err e => match ptrace_errno e with
               | Some _ => say (Logged (T "Unable to read registers: " ++ error_text e))
               | None => sthrow (XErr e)
               end
    end.
  (** pid of a process object *)
  Definition pid_in (st : dstate) (id : nat) : Z :=
    match nth_error (d_procs st) id with Some q => pr_pid q | None => 0 end.
  (** str(event), None included *)
  Definition event_str (st : dstate) (ev : option event) : text :=
    match ev with Some ev => event_message ns (pid_in st) ev | None => T "None" end.
  (** 7-15 *)
  Definition playWithProcess (id : nat) : SS unit :=
    _ <+- say (Printed (T "Dump process registers"));
    _ <+- process_dumpRegs;
    _ <+- say (Printed (T "Continue process execution"));
    _ <+- sdbg (cont K id 0);
    _ <+- say (Printed (T "Wait next process event..."));
    event <+- sdbg (fun st => waitProcessEvent K p fuel (Some (pid_in st id)) true st);
    fun s => say (Printed (T "New process event: " ++ event_str (fst s) event)) s.
  (** 17-25; [arguments] is not empty *)
  Definition traceProgram (arguments : list text) : SS Z :=
    match arguments with
    | [] => sthrow (XErr EIndexError)
    | program :: rest => sres (create (locateProgram cwd env_path executable program :: rest))
    end.
  (** 34-42: the number of a process to attach *)
  Definition given_pid (argv : list text) : res (option Z) :=
    match argv with
    | [_; word] => match py_int 10 word with
                   | Ok pid => Ok (Some pid)
                   | Err EValueError => Ok None
                   | Err e => Err e
                   end
    | _ => Ok None
    end.
  (** 27-57; PtraceDebugger() is the initial state *)
  Definition main (argv : list text) : SS unit :=
    if (List.length argv <? 2)%nat then
      match argv with
      | [] => sthrow (XErr EIndexError)
      | me :: _ =>
          _ <+- say (Stderr (T "usage: " ++ me ++ T " program [arg1 arg2 ...]"));
          _ <+- say (Stderr (T "   or: " ++ me ++ T " pid"));
          sthrow (XErr (ESystemExit 1))
      end
    else
      given <+- sres (given_pid argv);
      pid <+- (match given with Some pid => sret pid | None => traceProgram (tl argv) end);
      id <+- sdbg (addProcess K p fuel pid (match given with Some _ => false | None => true end) None false);
      _ <+- playWithProcess id;
      sdbg (quit K p fuel).
  Definition simple_dbg (argv : list text) : (dstate * list note) * out unit := main argv (new_debugger p, []).
End Simple.
