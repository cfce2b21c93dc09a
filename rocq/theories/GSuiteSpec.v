(** * GSuiteSpec: the debugger, its user and its process in the tests of gdb.py (C138). *)
From Coq Require Import ZArith List Ascii String Bool.
From Verif Require Import PyBase Platform RegexModel MapModel DbgModel TraceModel GdbModel ProcModel ProcSpec OutSpec GSuiteModel.
Import ListNotations.
Open Scope Z_scope.

Definition gdb_start : gstate := GState 0 [] [] None [].
(** The user types one command and closes the input. *)
Definition types (env : list (gcall * ans) -> gcall -> ans) (command : text) : Prop :=
  (forall h, (forall a, ~ In (CInput, a) h) -> env h CInput = AText command) /\ (forall h a, In (CInput, a) h -> env h CInput = AEof).
(** The process [id] is created, there are processes until the end, the terminal is as it should be, and gdb.py can leave them. *)
Definition quiet (env : list (gcall * ans) -> gcall -> ans) (id : nat) : Prop :=
  (forall h, env h CStart = AObj (Some id)) /\ (forall h, exists x l, env h CProcesses = AProcs (x :: l)) /\ (forall h, env h CEcho = ABool false) /\ (forall h, env h CQuit = AUnit).
(** ... and nothing is written by this. *)
Definition silent (written : gcall -> text) : Prop := written CStart = [] /\ written CProcesses = [] /\ written CEcho = [].
(** One command: not empty, no spaces around it, not the end of the session *)
Definition one_command (command : text) : Prop :=
  command <> [] /\ command <> T "quit" /\ ~ In ";"%char command /\ (forall c r, command = c :: r -> is_space c = false) /\ (forall c r, command = r ++ [c] -> is_space c = false).
(** The text [t] is somewhere in [s]. *)
Definition occurs (t s : text) : Prop := exists a b, s = a ++ t ++ b.

(** The lines among what a dump of the code does *)
Definition log_lines (l : list action) : list text := flat_map (fun a => match a with Line t => [t] | Read _ _ => [] end) l.
(** [t] is [s] without the spaces at its end (bytes). *)
Definition byte_space (c : ascii) : Prop := In c [z2b 9; z2b 10; z2b 11; z2b 12; z2b 13; z2b 32].
Definition without_end (s t : text) : Prop := (exists sp, s = t ++ sp /\ Forall byte_space sp) /\ forall r c, t = r ++ [c] -> ~ byte_space c.

Section Run.
  Context (p : platform) (ns : SigModel.namespace) (dis : bool) (eval : text -> res PyEval.pyval) (show : gline -> text) (written : gcall -> text).
  (** gdb.py is run with these answers and ends after having written [stdout]. *)
  Definition gdb_run (env : list (gcall * ans) -> gcall -> ans) (stdout : text) : Prop :=
    exists fuel st, gdb_main p ns dis eval env fuel gdb_start = (st, Ret tt) /\ stdout = gdb_stdout show written (g_hist st).
  (** Whatever happened before, the command does not raise and does not read the input, and what it writes is as [Q] says. *)
  Definition writes (env : list (gcall * ans) -> gcall -> ans) (id : nat) (command : text) (Q : text -> Prop) : Prop :=
    forall h, exists st ok (calls : list (gcall * ans)), execute p ns dis eval env command (GState id [] [] None h) = (st, Ret ok) /\ g_hist st = (List.rev calls ++ h)%list /\ (forall a, ~ In (CInput, a) calls) /\ Q (flat_map (call_text show written) calls).
End Run.
(** The conditions of all the tests *)
Definition tested (p : platform) (ns : SigModel.namespace) (dis : bool) (show : gline -> text) (written : gcall -> text)
    (env : list (gcall * ans) -> gcall -> ans) (id : nat) (command stdout : text) : Prop :=
  types env command /\ quiet env id /\ silent written /\ ~ occurs PROMPT (written CQuit) /\ gdb_run p ns dis PyEval.py_eval show written env stdout.

(** The files of the process in /proc can be read (see C71). *)
Definition readable (P : proc) (repr : text -> text) (pid : Z) : Prop :=
  exists program state numbers args env cwd env_text l1 l2 l3 ur ue us uf gr ge gs gf,
    is_space state = false /\ state <> ")"%char /\ (19 <= List.length numbers)%nat /\ no_cr program /\
    read_as P pid (T "stat") (stat_line pid program state numbers) /\
    Forall (fun a => ~ In NUL a) args /\ Forall no_cr args /\ read_as P pid (T "cmdline") (nul_terminated args) /\
    Forall (fun a => ~ In NUL a) env /\ Forall no_cr env /\ read_as P pid (T "environ") (nul_terminated env) /\
    format_env repr (Some 160) env = Ok env_text /\
    pc_link P pid (T "cwd") = Ok cwd /\
    Forall other_line l1 /\ Forall other_line l2 /\ Forall other_line l3 /\
    read_as P pid (T "status") (List.concat (l1 ++ ids_line (T "Uid") ur ue us uf :: l2 ++ ids_line (T "Gid") gr ge gs gf :: l3)) /\
    0 <= ur /\ 0 <= gr.
