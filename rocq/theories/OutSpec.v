(** * OutSpec: the lines of a trace and the place they go to. *)
From Coq Require Import ZArith List Ascii String Bool.
From Verif Require Import PyBase DbgModel StraceModel ToolsModel LogModel OutModel CmdSpec.
Import ListNotations.
Open Scope Z_scope.

(** Lines, each ended by a newline *)
Fixpoint text_of_lines (l : list text) : text := match l with [] => [] | t :: l => t ++ z2b 10 :: text_of_lines l end.
(** The lines of a trace in the order they are logged, errors included *)
Definition line_texts (shown : dexn -> list text) (l : tline) : list text :=
  match l with LSyscall _ _ t | LNewProcess _ t | LLine t => [t] | LError x => shown x end.
Fixpoint oldest_first {A} (l : list A) : list A := match l with [] => [] | x :: l => oldest_first l ++ [x] end.
Definition trace_text (shown : dexn -> list text) (st : tstate) : text := text_of_lines (flat_map (line_texts shown) (oldest_first (t_log st))).
(** The messages of an error that the level given by the options lets through: errors, and warnings unless --quiet (or if --verbose or --debug) ... *)
Definition loud (items : list item) (m : message) : bool :=
  match fst m with
  | log_error => true
  | log_warning => negb (given "--quiet -q" items) || given "--verbose -v" items || given "--debug" items
  | log_info => given "--verbose -v" items || given "--debug" items
  | log_debug => given "--debug" items
  end.
Definition shown_with (items : list item) (show : dexn -> list message) (x : dexn) : list text := map snd (filter (loud items) (show x)).
(** The contents of a file *)
Definition content (files : list (text * text)) (name : text) : option text :=
  match find (fun f : text * text => text_eqb (fst f) name) files with Some f => Some (snd f) | None => None end.
Definition same_files (a b : list (text * text)) : Prop := forall name, content a name = content b name.
Definition same_but (name : text) (a b : list (text * text)) : Prop := forall other, other <> name -> content a other = content b other.
(** With --profiler: a line before the trace when warnings are shown, and lines after it *)
Definition profiler_lines (items : list item) (r : out (option Z)) (dump : res unit) (stats : res (list text)) : list text * list text :=
  (if loud items (log_warning, []) then [T "Run profiler"] else [],
   match r, dump, stats with
   | Raise _, _, _ => []
   | _, Ok _, Ok lines => [T "Profiler: Process data..."; T "Profiler: Result:"] ++ map rstrip lines
   | _, _, _ => [T "Profiler: Process data..."]
   end).
(** The options for the level of the messages *)
Definition level_option (i : item) : Prop := exists name, i = IFlag name /\ one_of "--quiet -q --verbose -v --debug" name = true.
Definition only_errors (show : dexn -> list message) (st : tstate) : Prop := forall x, In (LError x) (t_log st) -> Forall (fun m => fst m = log_error) (show x).
