(** * FamilySpec: what a program and its children do while strace.py --fork watches them, and what strace.py should write about
    them.  The vocabulary of a single process is that of StorySpec. *)
From Coq Require Import ZArith List Ascii String Bool.
From Verif Require Import PyBase Platform IntModel RegModel SigModel ArgModel DbgModel DbgSpec SysModel StraceModel StraceSpec StorySpec.
Import ListNotations.
Open Scope Z_scope.

(** ** Families *)

(** A traced process (or thread), to which the debugger refers as [m_id] *)
Record member : Type := Member { m_id : nat; m_pid : Z; m_thread : bool }.

(** What happens to the process [id] at a time.  A [stop] is what can be read of it.
    [SCall]: it enters or leaves a system call.
    [SExecuted]: it leaves execve(), and the SIGTRAP follows (without --trace-exec); [z] is the process afterwards.
    [SExecution]: the kernel reports the execution of a program (with --trace-exec).
    [SSignal]: it receives a signal.
    [SFork]: fork (1), vfork (2) or clone (3) made the process [pid], to which the debugger refers as [new].
    [SEnd]: it ends. *)
Inductive step : Type :=
| SCall (id : nat) (x : stop)
| SExecuted (id : nat) (b z : stop)
| SExecution (id : nat)
| SSignal (id : nat) (signum : Z)
| SFork (id : nat) (kind : Z) (new : nat) (pid : Z)
| SEnd (id : nat) (m : status_meaning) (z : stop).
Definition actor (s : step) : nat :=
  match s with SCall id _ | SExecuted id _ _ | SExecution id | SSignal id _ | SFork id _ _ _ | SEnd id _ _ => id end.

Section Happens.
  Context (K : dkernel) (stops : nat -> nat -> stop) (options : Z).
  (** waitpid() for a process, with __WALL for a thread; WNOHANG is 1 *)
  Definition wall (q : member) : Z := if m_thread q then 0x40000000 else 0.
  Definition hanging (q : member) : kcall := KWait (m_pid q) (wall q).
  Definition polling (q : member) : kcall := KWait (m_pid q) (Z.lor 1 (wall q)).
  Definition tells (n : nat) (q : member) (m : status_meaning) : Prop := k_wait K n (m_pid q) (wall q) = Ok (m_pid q, encode m).
  (** The processes are asked in turn, until one of them has something to report. *)
  Inductive turn : list member -> nat -> list kcall -> option (member * status_meaning) -> Prop :=
  | turn_nobody n : turn [] n [] None
  | turn_report q l n m : k_wait K n (m_pid q) (Z.lor 1 (wall q)) = Ok (m_pid q, encode m) -> turn (q :: l) n [polling q] (Some (q, m))
  | turn_silence q l n status w r : k_wait K n (m_pid q) (Z.lor 1 (wall q)) = Ok (0, status) -> turn l (S n) w r -> turn (q :: l) n (polling q :: w) r.
  (** [awaits live pause k n w q m]: the requests [w], from number [n] on, end with the report [m] of [q] after [k] turns
      without report.  A process that is alone is waited for; between two turns there is a pause that doubles each time. *)
  Inductive awaits (live : list member) : Z -> nat -> nat -> list kcall -> member -> status_meaning -> Prop :=
  | awaits_alone pause n q m : live = [q] -> tells n q m -> awaits live pause 0 n [hanging q] q m
  | awaits_turn pause n w q m : (2 <= List.length live)%nat -> turn live n w (Some (q, m)) -> awaits live pause 0 n w q m
  | awaits_again pause pause' k n w w' q m : (2 <= List.length live)%nat -> turn live n w None -> pause' = Z.min (pause * 2) 500 ->
      k_do K (List.length w + n) (KSleep pause') = Ok tt -> awaits live pause' k (1 + List.length w + n) w' q m ->
      awaits live pause (S k) n (w ++ KSleep pause' :: w') q m.
  (** PTRACE_SYSCALL works *)
  Definition goes_on (n : nat) (q : member) (signum : Z) : Prop := k_do K n (KSyscall (m_id q) (m_pid q) signum) = Ok tt.
  Definition going_on (q : member) (signum : Z) : kcall := KSyscall (m_id q) (m_pid q) signum.
  Definition without (q : member) (live : list member) : list member := filter (fun r => negb (Nat.eqb (m_id r) (m_id q))) live.

  (** [happens quiet born live n steps asked]: [born] processes have been seen, of which [live] are alive, after [n] requests; then
      [steps] happens, until everybody is dead, and the debugger makes the requests [asked].  No more than [quiet] turns in a row
      give no report. *)
  Inductive happens (quiet : nat) : nat -> list member -> nat -> list step -> list kcall -> Prop :=
  | happens_nothing born n : happens quiet born [] n [] []
  | happens_call born live n k w q x steps asked : awaits live 1 k n w q CALL_STOP -> (k <= quiet)%nat ->
      stops (List.length w + n)%nat (m_id q) = x -> goes_on (List.length w + n) q 0 ->
      happens quiet born live (1 + List.length w + n) steps asked ->
      happens quiet born live n (SCall (m_id q) x :: steps) (w ++ [going_on q 0] ++ asked)
  | happens_executed born live n k w q b z steps asked : awaits live 1 k n w q CALL_STOP -> (k <= quiet)%nat ->
      stops (List.length w + n)%nat (m_id q) = b -> goes_on (List.length w + n) q 0 -> tells (1 + List.length w + n) q (Stopped 5) ->
      stops (2 + List.length w + n)%nat (m_id q) = z -> goes_on (2 + List.length w + n) q 0 ->
      happens quiet born live (3 + List.length w + n) steps asked ->
      happens quiet born live n (SExecuted (m_id q) b z :: steps) (w ++ [going_on q 0; hanging q; going_on q 0] ++ asked)
  | happens_execution born live n k w q steps asked : awaits live 1 k n w q (TraceEvent 4) -> (k <= quiet)%nat -> goes_on (List.length w + n) q 0 ->
      happens quiet born live (1 + List.length w + n) steps asked ->
      happens quiet born live n (SExecution (m_id q) :: steps) (w ++ [going_on q 0] ++ asked)
  | happens_signal born live n k w q signum steps asked : 1 <= signum < 128 -> awaits live 1 k n w q (Stopped signum) -> (k <= quiet)%nat ->
      k_do K (List.length w + n) (KDisplay (m_id q) signum) = Ok tt -> goes_on (1 + List.length w + n) q (if signum =? 5 then 0 else signum) ->
      happens quiet born live (2 + List.length w + n) steps asked ->
      happens quiet born live n (SSignal (m_id q) signum :: steps) (w ++ [KDisplay (m_id q) signum; going_on q (if signum =? 5 then 0 else signum)] ++ asked)
  | happens_fork born live n k w q kind pid s steps asked : In kind [1; 2; 3] -> In s [5; 19] -> pid <> 0 -> ~ In pid (map m_pid live) ->
      awaits live 1 k n w q (TraceEvent kind) -> (k <= quiet)%nat -> k_msg K (List.length w + n) (m_pid q) = Ok pid ->
      let new := Member born pid (kind =? 3) in
      tells (1 + List.length w + n) new (Stopped s) -> k_do K (2 + List.length w + n) (KSetOptions born pid options) = Ok tt ->
      goes_on (3 + List.length w + n) new 0 -> goes_on (4 + List.length w + n) q 0 ->
      happens quiet (S born) (live ++ [new]) (5 + List.length w + n) steps asked ->
      happens quiet born live n (SFork (m_id q) kind born pid :: steps)
        (w ++ [KEventMsg (m_id q) (m_pid q); hanging new; KSetOptions born pid options; going_on new 0; going_on q 0] ++ asked)
  | happens_end born live n k w q m z steps asked : deadly m -> awaits live 1 k n w q m -> (k <= quiet)%nat -> stops (List.length w + n)%nat (m_id q) = z ->
      happens quiet born (without q live) (List.length w + n) steps asked ->
      happens quiet born live n (SEnd (m_id q) m z :: steps) (w ++ asked).
End Happens.

(** The processes that are ever seen *)
Definition children (steps : list step) : list (nat * Z) :=
  flat_map (fun s => match s with SFork _ _ new pid => [(new, pid)] | _ => [] end) steps.

(** What can happen: only the living do something, and a new process has a new name. *)
Inductive possible : nat -> list member -> list step -> Prop :=
| possible_nothing born : possible born [] []
| possible_call born live q x steps : In q live -> possible born live steps -> possible born live (SCall (m_id q) x :: steps)
| possible_executed born live q b z steps : In q live -> possible born live steps -> possible born live (SExecuted (m_id q) b z :: steps)
| possible_execution born live q steps : In q live -> possible born live steps -> possible born live (SExecution (m_id q) :: steps)
| possible_signal born live q s steps : In q live -> 1 <= s < 128 -> possible born live steps -> possible born live (SSignal (m_id q) s :: steps)
| possible_fork born live q kind pid steps : In q live -> In kind [1; 2; 3] -> pid <> 0 -> ~ In pid (map m_pid live) ->
    possible (S born) (live ++ [Member born pid (kind =? 3)]) steps -> possible born live (SFork (m_id q) kind born pid :: steps)
| possible_end born live q m z steps : In q live -> deadly m -> possible born (without q live) steps -> possible born live (SEnd (m_id q) m z :: steps).

(** ** Lines *)

(** What was written at each step *)
Definition account : Type := list (step * list tline).
(** The part of a process *)
Definition part (id : nat) (r : account) : account := filter (fun x : step * list tline => Nat.eqb (actor (fst x)) id) r.

(** Between two system calls, or inside of one entered with [a] *)
Inductive phase : Type := Between | Inside (a : stop).

Section Lines.
  Context (p : platform) (ns : namespace) (repr_fs : list byte -> text) (errorcode : list (Z * text)) (strerror : Z -> text)
          (o : soptions) (only : list text) (pid : Z) (id : nat).
  (** The lines of an entry: see [call_lines] *)
  Inductive entry_lines (a : stop) : list tline -> Prop :=
  | entry_hidden c : enters p a c -> ~ selected o only (f_name (c_func c)) -> entry_lines a []
  | entry_shown c c0 c1 l : enters p a c -> selected o only (f_name (c_func c)) -> with_arguments p ns repr_fs o a c c0 ->
      announced p ns repr_fs o pid id a c0 c1 l -> entry_lines a l.
  Definition birth_line (new : nat) (pid : Z) : tline := LNewProcess new (T "*** New process " ++ str_int pid ++ T " ***").
  (** The part of the process in the account: every step has its lines, whatever the other processes do. *)
  Inductive tale : phase -> account -> Prop :=
  | tale_nil ph : tale ph []
  | tale_entry a l r : entry_lines a l -> tale (Inside a) r -> tale Between ((SCall id a, l) :: r)
  | tale_return a b l1 l2 r : call_lines p ns repr_fs errorcode strerror o only pid id a b b l1 l2 ->
      (call_is p a (T "execve") -> s_trace_exec o = true) -> tale Between r -> tale (Inside a) ((SCall id b, l2) :: r)
  | tale_executed a b z l1 l2 r : call_lines p ns repr_fs errorcode strerror o only pid id a b z l1 l2 ->
      call_is p a (T "execve") -> s_trace_exec o = false -> tale Between r -> tale (Inside a) ((SExecuted id b z, l2) :: r)
  | tale_execution ph r : tale ph r -> tale ph ((SExecution id, [execution_line pid]) :: r)
  | tale_signal ph s r : tale ph r -> tale ph ((SSignal id s, []) :: r)
  | tale_fork ph kind new npid r : tale ph r -> tale ph ((SFork id kind new npid, [birth_line new npid]) :: r)
  | tale_end m z : tale Between [(SEnd id m z, [end_line ns pid m])]
  | tale_end_inside a m z l1 l2 : entry_lines a l1 -> end_lines p ns repr_fs o only pid id (EndedInside a z m) (l1 ++ l2) ->
      tale (Inside a) [(SEnd id m z, l2)].
End Lines.

(** ** Exit status: the code of the last process that exits by itself, or of the last signal, whichever is later *)
Fixpoint family_code (steps : list step) (code : Z) : Z :=
  match steps with
  | [] => code
  | SSignal _ s :: steps => family_code steps (128 + s)
  | SEnd _ (Exited c) _ :: steps => family_code steps c
  | _ :: steps => family_code steps code
  end.
