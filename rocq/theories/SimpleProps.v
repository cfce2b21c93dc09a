(** * SimpleProps: C114, examples/simple_dbg.py. *)
From Coq Require Import ZArith List Ascii String Bool Lia.
From Verif Require Import PyBase PyFacts PyInt Platform DbgModel DbgSpec DbgFinal2 SigModel ToolsModel SimpleModel SimpleSpec SimpleProofs.
Import ListNotations.
Open Scope Z_scope.

Theorem c114_usage : forall p ns K fuel regs et create cwd path ex me,
  simple_dbg p ns K fuel regs et create cwd path ex [me] =
  ((new_debugger p, [Stderr (T "   or: " ++ me ++ T " pid"); Stderr (T "usage: " ++ me ++ T " program [arg1 arg2 ...]")]),
   Raise (XErr (ESystemExit 1))).
Proof. exact usage. Qed.
Print Assumptions c114_usage.
(** a number: no program is started, exactly this process is attached *)
Theorem c114_attach : forall p ns K fuel regs et create cwd path ex me pid,
  let run := simple_dbg p ns K fuel regs et create cwd path ex [me; str_int pid] in
  (forall create', simple_dbg p ns K fuel regs et create' cwd path ex [me; str_int pid] = run) /\
  filter is_attach (rev (d_calls (fst (fst run)))) = [KAttach pid] /\ reachable_plain K p (fst (fst run)).
Proof. exact attach_spec. Qed.
Print Assumptions c114_attach.
(** anything else: the located program is started with its arguments, nothing is attached *)
Theorem c114_trace : forall p ns K fuel regs et create cwd path ex me program rest,
  (rest = [] -> py_int 10 program = Err EValueError) ->
  let run := simple_dbg p ns K fuel regs et create cwd path ex (me :: program :: rest) in
  match create (locateProgram cwd path ex program :: rest) with
  | Err e => run = ((new_debugger p, []), Raise (XErr e))
  | Ok pid => filter is_attach (d_calls (fst (fst run))) = [] /\ reachable_plain K p (fst (fst run))
  end.
Proof. exact trace_spec. Qed.
Print Assumptions c114_trace.
(** a run without exception: what is written; it ends with quit() *)
Theorem c114_said : forall p ns K fuel regs et create cwd path ex me program rest s notes,
  simple_dbg p ns K fuel regs et create cwd path ex (me :: program :: rest) = ((s, notes), Ret tt) ->
  exists pid (attached : bool) d d3 id ev lines,
    (if attached then create (locateProgram cwd path ex program :: rest) = Ok pid else rest = [] /\ py_int 10 program = Ok pid) /\
    addProcess K p fuel pid attached None false (new_debugger p) = (d, Ret id) /\
    (regs = Ok lines \/ exists e, regs = Err e /\ ptrace_errno e <> None /\ lines = [T "Unable to read registers: " ++ et e]) /\
    rev notes = dialogue lines (event_message ns (pid_in d3) ev) /\ quit K p fuel d3 = (s, Ret tt).
Proof. exact said_spec. Qed.
Print Assumptions c114_said.
(** an exception on the way: the started process is neither killed nor detached *)
Theorem c114_left_refuted : exists K argv create notes s, let r := simple_dbg linux_x86_64 [] K 5 (Ok []) (fun _ => []) create (T "/") None (fun _ => true) argv in
  r = ((s, notes), Raise (XErr EKeyboardInterrupt)) /\ create [T "/bin/true"] = Ok 100 /\
  attached s 0 /\ alive s 0 /\ has_pid s 0 100 /\ d_list s = [0%nat] /\
  forall c, In c (d_calls s) -> is_kill c = false /\ forall i pid, c <> KDetach i pid /\ c <> KCont i pid 9.
Proof. exact left_alone. Qed.
Print Assumptions c114_left_refuted.
Example c114_ex :
  let K := scripted [stop_by 5; 0; 0; stop_by 11; 0; 9] in
  let create (l : list text) := match l with [a; b] => if text_eqb a (T "/bin/ls") && text_eqb b (T "-l") then Ok 100 else Err EIndexError | _ => Err EIndexError end in
  let '((s, notes), r) := simple_dbg linux_x86_64 [] K 5 (Ok [T "rip = 0"]) (fun _ => []) create (T "/") (Some (T "/usr/bin:/bin"))
     (fun f => text_eqb f (T "/bin/ls")) [T "simple_dbg.py"; T "ls"; T "-l"] in
  r = Ret tt /\ rev notes = dialogue [T "rip = 0"] (T "Signal signal<11>") /\ d_list s = [] /\
  rev (d_calls s) = [KWait 100 0; KSetOptions 0 100 1; KCont 0 100 0; KWait 100 0; KCont 0 100 9; KWait 100 0].
Proof. vm_compute. repeat split. Qed.
Example c114_attach_ex :
  let K := scripted [0; stop_by 19; 0; 0; stop_by 11; 0] in
  let '((s, notes), r) := simple_dbg linux_x86_64 [] K 5 (Err (EPtraceError (Some 3))) (fun _ => T "gone") (fun _ => Err EIndexError) (T "/") None
     (fun _ => true) [T "simple_dbg.py"; T "100"] in
  r = Ret tt /\ rev notes = dialogue [T "Unable to read registers: gone"] (T "Signal signal<11>") /\ d_list s = [] /\
  rev (d_calls s) = [KAttach 100; KWait 100 0; KSetOptions 0 100 1; KCont 0 100 0; KWait 100 0; KDetach 0 100].
Proof. vm_compute. repeat split. Qed.
