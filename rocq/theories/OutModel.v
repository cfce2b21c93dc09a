(** * OutModel: where the output of strace.py goes (strace.py 20-36, 245-253; ptrace/debugger/application.py 18-30). *)
From Coq Require Import ZArith List Ascii String Bool.
From Verif Require Import PyBase Platform ToolsModel LogModel DbgModel StraceModel CmdModel.
Import ListNotations.
Open Scope Z_scope.

(** What strace.py leaves.  [u_files]: the contents of the files it may write; [u_stderr]: what is logged there; [u_printed]: the lines of print()
    (not those of optparse); [u_started]: main() was called; [u_closed]: the file of --output was closed.  What the traced program itself writes and the
    traceback of an exception that leaves main() are not represented. *)
Record outcome : Type := Outcome { u_files : list (text * text); u_stderr : text; u_printed : list text; u_started : bool; u_closed : bool; u_status : Z }.

Section Out.
  (** [traced o only]: the run of _main() (StraceModel.strace_main); [show]: the messages logged for an error;
      [open_w]: open(name, 'w'); [profile], [dump], [stats]: see LogModel.runProfiler.  The messages of the modules of ptrace/debugger below the level
      ERROR, shown with --verbose or --debug, and the lines of event.display() for a signal (a request KDisplay of the run) are not represented. *)
  Context (p : platform) (compile : text -> res (text -> bool)) (locate : text -> text) (traced : soptions -> list text -> tstate * out (option Z))
          (show : dexn -> list message) (open_w : text -> res unit) (profile : bool) (dump : res unit) (stats : res (list text)).

  Definition messages_of (l : tline) : list message :=
    match l with
    | LSyscall _ _ t | LNewProcess _ t | LLine t => [(log_error, t)]
    | LError x => show x
    end.
  Definition as_res (r : out (option Z)) : res (option Z) :=
    match r with Ret a => Ok a | Raise (XErr e) => Err e | Raise (XEvent _) => Err EUndefined end.
  Definition as_out (r : res (option Z)) : out (option Z) := match r with Ok a => Ret a | Err e => Raise (XErr e) end.
  (** strace.py 245-250: the messages, the oldest first, and the end; the first message of runProfiler() is before those of _main() *)
  Definition run_main (profiler : bool) (o : soptions) (only : list text) : list message * out (option Z) :=
    let (st, r) := traced o only in
    let l := flat_map messages_of (rev (t_log st)) in
    if profiler then
      let '(log, _, r) := runProfiler profile (as_res r) dump stats in
      (firstn 1 log ++ l ++ skipn 1 log, as_out r)
    else (l, r).
  (** StreamHandler.emit (Python library): a message and a newline, flushed *)
  Definition emitted (level : Z) (l : list message) : text := List.concat (map (fun t => t ++ ["010"%char]) (displayed level l)).
  Definition is_ret {A} (r : out A) : bool := match r with Ret _ => true | Raise _ => false end.

  (** strace.py 20-36, 245-253 and 284 *)
  Definition strace_program (args : list text) (files : list (text * text)) : outcome :=
    match strace_parse p compile locate args with
    | Err _ => Outcome files [] [] false false 1
    | Ok (Exit code printed) => Outcome files [] printed false false (code mod 256)
    | Ok (Run (o, only, values)) =>
        let level := setup_level (log_of values) in
        match opt_str values "output" with
        | Some (c :: t) =>
            match open_w (c :: t) with
            | Err _ => Outcome files [] [] false false 1
            | Ok _ =>
                let (l, r) := run_main (opt_bool values "profiler") o only in
                Outcome (dset text_eqb (c :: t) (emitted level l) files) [] [] true (is_ret r) (exit_status r)
            end
        | _ =>
            let (l, r) := run_main (opt_bool values "profiler") o only in
            Outcome files (emitted level l) [] true false (exit_status r)
        end
    end.
End Out.
