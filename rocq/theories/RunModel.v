(** * RunModel: runtests.py, the runner of the tests. *)
From Coq Require Import ZArith List Ascii String Bool.
From Verif Require Import PyBase.
Import ListNotations.
Open Scope Z_scope.

(** A directory tree: what os.listdir() gives, with os.path.isdir(); everything that is not a directory is a file. *)
Inductive node : Type :=
| NFile
| NDir (entries : list (text * node)).

(** os.path.join(dir, name) for a name without slash *)
Definition join_path (dir name : text) : text :=
  match rev dir with
  | [] => name
  | c :: _ => if Ascii.eqb c "/" then dir ++ name else dir ++ T "/" ++ name
  end.
(** os.path.split(dir)[-1]: what follows the last slash *)
Fixpoint last_component_from (acc s : text) : text :=
  match s with
  | [] => acc
  | c :: s => if Ascii.eqb c "/" then last_component_from [] s else last_component_from (acc ++ [c]) s
  end.
Definition last_component (dir : text) : text := last_component_from [] dir.
Definition is_file (name : text) (entries : list (text * node)) : bool :=
  existsb (fun e : text * node => text_eqb (fst e) name && match snd e with NFile => true | NDir _ => false end) entries.

Definition init_py : text := T "__init__.py".
(** runtests.py 96-98; the suffix is '.py' *)
Definition is_module (name : text) : bool :=
  negb (text_eqb name init_py) && ends_with (T ".py") name && negb (starts_with (T ".") name || starts_with (T "_") name).

(** runtests.py 80-101: list_dir; [name[:-3]] *)
Fixpoint list_dir (n : node) (prefix dir : text) : list (text * text) :=
  match n with
  | NFile => []
  | NDir entries =>
      let modpath := join_path dir init_py in
      let package := is_file init_py entries in
      let this := last_component dir in
      let prefix' := if package then prefix ++ this ++ T "." else prefix in
      (if package then [(prefix ++ this, modpath)] else []) ++
      (fix walk (l : list (text * node)) : list (text * text) :=
         match l with
         | [] => []
         | (name, sub) :: l =>
             let path := join_path dir name in
             match sub with
             | NDir _ => list_dir sub (prefix' ++ name ++ T ".") path
             | NFile => if is_module name then [(prefix' ++ firstn (List.length name - 3) name, path)] else []
             end ++ walk l
         end) entries
  end.

(** What loading a module gives: the names that dir() lists, or an exception ([LFail]: an Exception other than
    SyntaxError, with its text; [LAbort]: SyntaxError or what is not an Exception). *)
Inductive load : Type :=
| LMod (names : list text)
| LFail (message : text)
| LAbort (e : exn).

Section Run.
  Context (loader : text -> text -> load).
  (** runtests.py 103-115: the modules with the names they have, the lines written, and how it ended *)
  Fixpoint load_modules (files : list (text * text)) : list (text * list text) * list text * res unit :=
    match files with
    | [] => ([], [], Ok tt)
    | (modname, sourcefile) :: files =>
        if text_eqb modname (T "runtests") then load_modules files
        else match loader modname sourcefile with
             | LMod names => let '(mods, lines, r) := load_modules files in ((sourcefile, names) :: mods, lines, r)
             | LFail message =>
                 let '(mods, lines, r) := load_modules files in
                 (mods, (T "Skipping '" ++ modname ++ T "': " ++ message) :: lines, r)
             | LAbort e => ([], [], Err e)
             end
    end.
  (** runtests.py 126-135: the classes, named by their file and name *)
  Definition test_factories (mods : list (text * list text)) : list (text * text) :=
    flat_map (fun m : text * list text => map (fun name => (fst m, name)) (filter (contains (T "Test")) (snd m))) mods.

  (** [tests f]: loader.loadTestsFromTestCase, the identifiers of the tests or an exception (the name does not stand for a class of tests); [search pattern id]: re.search *)
  Context (tests : text * text -> res (list text)) (search : text -> text -> bool).
  (** runtests.py 137-157; a list of patterns, or None *)
  Definition selected (includes excludes : option (list text)) (id : text) : bool :=
    match includes with None | Some [] => true | Some l => existsb (fun pat => search pat id) l end &&
    match excludes with None | Some [] => true | Some l => negb (existsb (fun pat => search pat id) l) end.
  Definition load_tests (includes excludes : option (list text)) (factories : list (text * text)) : res (list text) :=
    do l <- mapM tests factories;
    Ok (filter (selected includes excludes) (List.concat l)).

  (** The options: -x, --pattern (a list, None when not given), -q, -v *)
  Record run_options : Type := RunOptions {
    ro_exclude : bool;
    ro_pattern : option (list text);
    ro_quiet : bool;
    ro_verbose : bool
  }.
  (** runtests.py 223-227 *)
  Definition patterns (o : run_options) : option (list text) * option (list text) :=
    if ro_exclude o then (Some [], ro_pattern o) else (ro_pattern o, Some []).
  (** runtests.py 229 *)
  Definition verbosity (o : run_options) : Z := if ro_quiet o then 0 else (if ro_verbose o then 1 else 0) + 1.
  (** runtests.py 243-252: CRITICAL, ERROR, WARNING, INFO, DEBUG *)
  Definition log_level (v : Z) : option Z :=
    if v =? 0 then Some 50 else if v =? 1 then Some 40 else if v =? 2 then Some 30 else if v =? 3 then Some 20
    else if 4 <=? v then Some 10 else None.
  (** runtests.py 198-267 without --coverage, --forever and --findleaks, the tests directory being there;
      [run l]: whether the runner was successful.  The result: the tests run, the lines and the exception that ends it *)
  Definition runtests (run : list text -> bool) (o : run_options) (testsdir : text) (tree : node) : list text * list text * exn :=
    let '(mods, lines, r) := load_modules (list_dir tree [] testsdir) in
    match r with
    | Err e => ([], lines, e)
    | Ok _ =>
        let '(includes, excludes) := patterns o in
        match load_tests includes excludes (test_factories mods) with
        | Err e => ([], lines, e)
        | Ok l => (l, lines, ESystemExit (if run l then 0 else 1))
        end
    end.
End Run.
