(** * PathSpec: what a program does while examples/itrace.py watches it, and what itrace.py should write about it. *)
From Coq Require Import ZArith List Ascii String Bool.
From Verif Require Import PyBase Platform SigModel DbgModel DbgSpec SysModel StraceModel StraceSpec StorySpec ItraceModel ItraceSpec.
Import ListNotations.
Open Scope Z_scope.

(** [arrives o child K pid started first asked]: the program is started, or attached with --pid; [first] is the first line and
    [asked] are the requests until then. *)
Inductive arrives (o : soptions) (child : res Z) (K : dkernel) (pid : Z) : bool -> tline -> list kcall -> Prop :=
| arrives_program x l : child = Ok pid -> (forall n, s_pid o = Some n -> n = 0) -> s_program o = x :: l ->
    reports K pid 0 (Stopped 5) -> k_do K 1 (KSetOptions 0 pid (all_options o)) = Ok tt ->
    arrives o child K pid true (LLine (execve_line x (x :: l) pid)) [KWait pid 0; KSetOptions 0 pid (all_options o)]
| arrives_attach : s_pid o = Some pid -> k_do K 0 (KAttach pid) = Ok tt ->
    reports K pid 1 (Stopped 19) -> k_do K 2 (KSetOptions 0 pid (all_options o)) = Ok tt ->
    arrives o child K pid false (LLine (T "Attach process " ++ str_int pid)) [KAttach pid; KWait pid 0; KSetOptions 0 pid (all_options o)].

(** The kernel runs the program: the answers to the requests number [n], [n + 1], ... of the debugger.
    [ip n id] is the address of the next instruction after [n] requests. *)
Section Runs.
  Context (K : dkernel) (ip : nat -> nat -> res Z) (pid : Z) (id : nat).
  (** It comes to [k] stops of system calls, *)
  Fixpoint passes (n k : nat) (after : nat -> Prop) : Prop :=
    match k with
    | O => after n
    | S k => StorySpec.resumes K pid id n 0 /\ reports K pid (1 + n) CALL_STOP /\ passes (2 + n) k after
    end.
  (** executes the instructions at the addresses [path], *)
  Fixpoint walks (n : nat) (path : list Z) (after : nat -> Prop) : Prop :=
    match path with
    | [] => after n
    | a :: path => ip n id = Ok a /\ 0 <= a /\ k_do K n (KStep id pid) = Ok tt /\ reports K pid (1 + n) (Stopped 5) /\ walks (2 + n) path after
    end.
  (** and then an instruction at [a], after which it ends or gets a signal *)
  Definition last_step (a : Z) (m : status_meaning) (n : nat) : Prop :=
    ip n id = Ok a /\ 0 <= a /\ k_do K n (KStep id pid) = Ok tt /\ reports K pid (1 + n) m.
  (** It ends inside a system call it has been let into. *)
  Definition last_call (m : status_meaning) (n : nat) : Prop := StorySpec.resumes K pid id n 0 /\ deadly m /\ reports K pid (1 + n) m.
End Runs.

(** What is asked for *)
Definition pass_requests (pid : Z) (id k : nat) : list kcall := List.concat (repeat [KSyscall id pid 0; KWait pid 0] k).
Definition walk_requests (pid : Z) (id : nat) (path : list Z) : list kcall := flat_map (fun _ => [KStep id pid; KWait pid 0]) path.
(** What is written: a line for each instruction, with its number and its address in at least eight hexadecimal digits *)
Fixpoint walk_lines (pid i : Z) (path : list Z) : list tline :=
  match path with
  | [] => []
  | a :: path => LLine (str_int i ++ T " " ++ str_int pid ++ T " [" ++ padl 8 "0"%char (digits 16 a) ++ T "]") :: walk_lines pid (i + 1) path
  end.
