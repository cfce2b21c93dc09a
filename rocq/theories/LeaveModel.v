(** * LeaveModel: letting a process go (PtraceProcess.detach and the destructors of PtraceProcess and Breakpoint). *)
From Coq Require Import ZArith List Ascii String Bool.
From Verif Require Import PyBase Platform IntModel CallModel MemModel StructModel RegModel BreakModel.
Import ListNotations.
Open Scope Z_scope.

(** The process of BreakModel with the attribute [is_attached], whether the debugger still has the process in its
    dictionary and its list, and how many PTRACE_DETACH requests were made. *)
Record lstate : Type := LState {
  l_b : bstate;
  l_attached : bool;
  l_registered : bool;
  l_detaches : nat
}.
Definition with_b (s : lstate) (b : bstate) : lstate := LState b (l_attached s) (l_registered s) (l_detaches s).

(** ptrace/error.py 14, ptrace/debugger/process_error.py 4, ptrace/debugger/debugger.py 24: what [except PtraceError] catches *)
Definition is_ptrace_error (e : exn) : bool :=
  match e with EPtraceError _ | EProcessError | EDebuggerError => true | _ => false end.
(** try: ... except PtraceError: pass *)
Definition swallow (r : res unit) : res unit :=
  match r with Err e => if is_ptrace_error e then Ok tt else Err e | Ok _ => Ok tt end.

Section Leave.
  Context (E : penv) (K : rkernel).

  (** ptrace/debugger/process.py 291-298 with ptrace/debugger/debugger.py 225-241; [reply] is the outcome of PTRACE_DETACH *)
  Definition detach (reply : res unit) (s : lstate) : lstate * res unit :=
    if negb (l_attached s) then (s, Ok tt)
    else if b_running (l_b s) then
      match reply with
      | Err e => (LState (l_b s) false (l_registered s) (S (l_detaches s)), Err e)
      | Ok _ => (LState (l_b s) false false (S (l_detaches s)), Ok tt)
      end
    else (LState (l_b s) false false (l_detaches s), Ok tt).
  (** ptrace/debugger/process.py 761-765 *)
  Definition process_del (reply : res unit) (s : lstate) : lstate * res unit :=
    let '(s, r) := detach reply s in (s, swallow r).

  (** self._installed = False *)
  Definition forget_installed (id : nat) (b : bstate) : bstate :=
    match nth_error (b_objs b) id with
    | Some bp => with_objs b (set_nth id (BP (bp_address bp) (bp_size bp) (bp_old bp) false) (b_objs b))
    | None => b
    end.
  (** ptrace/debugger/breakpoint.py 39-55.  [alive]: the process object still exists (the weak reference answers).
      The kernel refuses to change the memory of a process which is not traced: [refused] is the exception raised by writeBytes then. *)
  Definition desinstall (alive : bool) (refused : exn) (id : nat) (set_ip : bool) (s : lstate) : lstate * res unit :=
    match nth_error (b_objs (l_b s)) id with
    | None => (s, Ok tt)
    | Some bp =>
        if negb (bp_installed bp) then (s, Ok tt)
        else if negb alive then (with_b s (forget_installed id (l_b s)), Ok tt)
        else if negb (l_attached s) && b_running (l_b s) then (with_b s (forget_installed id (l_b s)), Err refused)
        else let '(b, r) := BreakModel.desinstall E K id set_ip (l_b s) in (with_b s b, r)
    end.
  (** ptrace/debugger/breakpoint.py 62-66 *)
  Definition breakpoint_del (alive : bool) (refused : exn) (id : nat) (s : lstate) : lstate * res unit :=
    let '(s, r) := desinstall alive refused id false s in (s, swallow r).

  (** ptrace/debugger/process.py 747-753; a process which is not traced: see [desinstall] *)
  Definition createBreakpoint (refused : exn) (address : Z) (size : option Z) (s : lstate) : lstate * res nat :=
    if l_attached s then
      let '(b, r) := BreakModel.createBreakpoint E address size (l_b s) in (with_b s b, r)
    else match findBreakpoint address (l_b s) with
         | Some _ => (s, Err EProcessError)
         | None => (s, Err refused)
         end.

  (** The end of the process object: its destructor, then, the weak references to it being dead, the destructors of the
      breakpoints that only its dictionary held. *)
  Definition destroy (reply : res unit) (s : lstate) : lstate * res unit :=
    let '(s, r) := process_del reply s in
    (fold_left (fun s (a : Z * nat) => fst (breakpoint_del false EProcessError (snd a) s)) (b_dict (l_b s)) s, r).
End Leave.
