(** * SdistProps: C145 — the source distribution. *)
From Coq Require Import ZArith List Ascii String.
From Verif Require Import PyBase PyIntFacts SdistCode SdistModel SdistSpec SdistProofs.
Import ListNotations.
Open Scope char_scope.

(** Patterns match whole names, and their stars no slash. *)
Theorem c145_glob : forall p s, glob p s = true <-> matches p s.
Proof. exact glob_matches. Qed.
Print Assumptions c145_glob.
(** Every word of a line "include ..." is a pattern, in any number of lines and for any files. *)
Theorem c145_line : forall line words, includes line words -> line_patterns line = words.
Proof. exact line_words. Qed.
Print Assumptions c145_line.
(** Other lines have none. *)
Theorem c145_other : forall action rest, action <> [] -> Forall (fun c => is_space c = false /\ c <> "#") action -> action <> T "include" ->
  line_patterns (action ++ " " :: rest) = [] /\ line_patterns ("#" :: rest) = [].
Proof. exact (fun action rest N F => other_line action rest (conj N F)). Qed.
Print Assumptions c145_other.
Theorem c145_included : forall manifest tree f, In f (included manifest tree) <-> In f tree /\ exists line p, In line manifest /\ In p (line_patterns line) /\ matches p f.
Proof. exact included_iff. Qed.
Print Assumptions c145_included.
(** A package has the modules of its own directory, not those of its subpackages. *)
Theorem c145_package : forall l tree f, Forall (fun n => plain n /\ ~ In "*" n /\ ~ In "?" n) l -> l <> [] ->
  (In f (package_files (join (T ".") l) tree) <-> In f tree /\ exists n, ~ In "/" n /\ f = module_file l n).
Proof. exact package_files_iff. Qed.
Print Assumptions c145_package.
(** All files below ptrace/ are modules of the packages that setup.py lists; each of these has a file __init__.py and its parent is listed as well. *)
Theorem c145_packages : forall f rest, In f tree -> f = T "ptrace/" ++ rest -> exists m, In m modules /\ In f (package_files m tree).
Proof. exact packages_complete. Qed.
Print Assumptions c145_packages.
Theorem c145_parents : forall m, In m modules -> In (package_dir m ++ T "/__init__.py") tree /\ forall parent name, m = parent ++ "." :: name -> ~ In "." name -> In parent modules.
Proof. exact packages_init. Qed.
Print Assumptions c145_parents.
(** The distribution has all files of the repository, but .gitignore and the workflows of GitHub, and no others. *)
Theorem c145_sdist : forall f, In f (sdist tree) <-> In f tree /\ ~ In f repository_only.
Proof. exact (fun f => conj (fun I => conj (sdist_only tree f I) (proj1 (sdist_files f (sdist_only tree f I)) I)) (fun H => proj2 (sdist_files f (proj1 H)) (proj2 H))). Qed.
Print Assumptions c145_sdist.
(** So not "all files tracked by the SCM", as setup.py asks (8-9). *)
Theorem c145_all_refuted : exists f, In f tree /\ ~ In f (sdist tree).
Proof. exact sdist_lacks. Qed.
Print Assumptions c145_all_refuted.
(** setup.py and setup_cptrace.py can be run in it: what they read is there. *)
Theorem c145_reads : forall f, In f (setup_reads ++ setup_cptrace_reads ++ scripts) -> In f (sdist tree).
Proof. exact reads_shipped. Qed.
Print Assumptions c145_reads.
(** Seven patterns of MANIFEST.in are out of date: no file matches. *)
Theorem c145_unused : forall p, (In p (patterns manifest) /\ forall f, In f tree -> ~ matches p f) <-> In p gone.
Proof. exact unused_all. Qed.
Print Assumptions c145_unused.
(** The numbers of a version can be read back from its text; that of the documentation is the same. *)
Theorem c145_version : (forall v, v <> [] -> split_char "." (version_text v) = map str_int v) /\ version_text version = doc_release.
Proof. exact (conj version_parts eq_refl). Qed.
Print Assumptions c145_version.
(** setup_cptrace.py takes the first --setuptools from the arguments, and nothing else. *)
Theorem c145_argv : forall before after, Forall (fun a => a <> T "--setuptools") before ->
  cptrace_argv (before ++ T "--setuptools" :: after) = (true, before ++ after) /\ (Forall (fun a => a <> T "--setuptools") after -> cptrace_argv (before ++ after) = (false, before ++ after)).
Proof. exact argv_removed. Qed.
Print Assumptions c145_argv.

(** Lines and files of the repository *)
Example c145_ex :
  glob (T "doc/*.rst") (T "doc/gdb.rst") = true /\ glob (T "doc/*.rst") (T "doc/old/gdb.rst") = false /\ glob (T "tests/test_*.py") (T "tests/test_.py") = true /\ glob (T "a?c") (T "abc") = true
  /\ includes (T "include doc/*.rst doc/conf.py # both") [T "doc/*.rst"; T "doc/conf.py"] /\ line_patterns (T "# Tests") = []
  /\ package_dir (T "ptrace.syscall.linux") = T "ptrace/syscall/linux" /\ In (T "ptrace/syscall/linux/i386.py") (package_files (T "ptrace.syscall.linux") tree)
  /\ module_file [T "ptrace"; T "syscall"] (T "names") = T "ptrace/syscall/names.py"
  /\ List.length tree = 109%nat /\ List.length (patterns manifest) = 27%nat
  /\ cptrace_argv [T "setup_cptrace.py"; T "--setuptools"; T "build"] = (true, [T "setup_cptrace.py"; T "build"]) /\ version_text [1; 0; 12]%Z = T "1.0.12".
Proof.
  repeat match goal with |- _ /\ _ => split end; try match goal with |- _ = _ => vm_compute; reflexivity end.
  - apply (includes_line [T "doc/*.rst"; T "doc/conf.py"] (T " # both")); [|right; now exists (T " both")].
    repeat constructor; discriminate.
  - apply in_dec_b. vm_compute. reflexivity.
Qed.
