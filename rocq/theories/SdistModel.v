(** * SdistModel: the source distribution: setup.py, setup_cptrace.py and MANIFEST.in, and what distutils makes of them (the command sdist: add_defaults() and
    read_template()).  Only the files count, no directories; the directory has no other files than those of the repository. *)
From Coq Require Import ZArith List Ascii String Bool.
From Verif Require Import PyBase SdistCode.
Import ListNotations.
Open Scope char_scope.

(** distutils.filelist.translate_pattern(): * and ? do not match a slash, and the whole name has to match.  Simplification: there are no sets [...], MANIFEST.in has none. *)
Fixpoint glob (p : text) : text -> bool :=
  match p with
  | [] => fun s => match s with [] => true | _ => false end
  | c :: p =>
      if Ascii.eqb c "*" then
        fix star (s : text) : bool := (glob p s || match s with x :: s => negb (Ascii.eqb x "/") && star s | [] => false end)%bool
      else fun s => match s with x :: s => ((if Ascii.eqb c "?" then negb (Ascii.eqb x "/") else Ascii.eqb x c) && glob p s)%bool | [] => false end
  end.

(** MANIFEST.in: a line without its comment (there are no backslashes), its words, the patterns of "include".  Simplification: there are no other actions. *)
Fixpoint no_comment (line : text) : text := match line with [] => [] | c :: line => if Ascii.eqb c "#" then [] else c :: no_comment line end.
Definition line_patterns (line : text) : list text :=
  match split_ws (no_comment line) with
  | action :: patterns => if text_eqb action (T "include") then patterns else []
  | [] => []
  end.
Definition patterns (manifest : list text) : list text := flat_map line_patterns manifest.
(** FileList.include_pattern(): the files, for every pattern *)
Definition included (manifest tree : list text) : list text := flat_map (fun p => filter (glob p) tree) (patterns manifest).

(** setup.py 62-64: the directory of a package *)
Definition package_dir (name : text) : text := map (fun c => if Ascii.eqb c "." then "/" else c) name.
(** distutils.command.build_py.find_package_modules(): the files *.py of the directory of the package *)
Definition package_files (name : text) (tree : list text) : list text := filter (glob (package_dir name ++ T "/*.py")) tree.
(** distutils.command.sdist.add_defaults(): README.rst (setuptools), setup.py, setup.cfg, the packages, the scripts *)
Definition defaults (tree : list text) : list text :=
  filter (fun f => existsb (text_eqb f) [T "README.rst"; T "setup.py"; T "setup.cfg"]) tree
  ++ flat_map (fun m => package_files m tree) modules ++ filter (fun f => existsb (text_eqb f) scripts) tree.
Definition sdist (tree : list text) : list text := defaults tree ++ included manifest tree.

(** ptrace/version.py 3: __version__ *)
Definition version_text (v : list Z) : text := join (T ".") (map str_int v).

(** setup_cptrace.py 25-29: argv, and whether setuptools is imported *)
Fixpoint remove_arg (a : text) (argv : list text) : list text := match argv with [] => [] | x :: argv => if text_eqb x a then argv else x :: remove_arg a argv end.
Definition cptrace_argv (argv : list text) : bool * list text :=
  if existsb (text_eqb (T "--setuptools")) argv then (true, remove_arg (T "--setuptools") argv) else (false, argv).
