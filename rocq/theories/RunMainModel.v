(** * RunMainModel: the options --forever, --coverage, --findleaks, --failfast and --catch of runtests.py. *)
From Coq Require Import ZArith List Ascii String Bool.
From Verif Require Import PyBase RunModel.
Import ListNotations.
Open Scope Z_scope.

(** ** --findleaks *)
(** A test as TestResult sees it: its description, whether it succeeded, the uncollectable objects it made (their repr()) *)
Record one_test : Type := OneTest { t_name : text; t_success : bool; t_garbage : list text }.
(** runtests.py 160-182 (TestResult): gc.garbage and [leaks] after the tests.  The warning written by addSuccess when
    [showAll] is set is left out; gc.collect() moves what is uncollectable to gc.garbage, so that what a test made is
    there when the test ends.  What startTest collects was made by the test before. *)
Fixpoint find_leaks (tests : list one_test) (garbage : list text) : list (text * list text) * list text :=
  match tests with
  | [] => ([], garbage)
  | t :: tests =>
      let garbage := garbage ++ t_garbage t in
      if t_success t && match garbage with [] => false | _ => true end
      then let '(leaks, rest) := find_leaks tests [] in ((t_name t, garbage) :: leaks, rest)
      else find_leaks tests garbage
  end.
(** runtests.py 188-196 (TestRunner.run) *)
Definition leak_lines (leaks : list (text * list text)) : list text :=
  match leaks with
  | [] => []
  | _ => (str_int (Z.of_nat (List.length leaks)) ++ T " tests leaks:") ::
         flat_map (fun l : text * list text => (T "    " ++ fst l ++ T ":") :: map (fun x => T "        " ++ x) (snd l)) leaks
  end.

(** ** runtests() *)
(** What runtests() does, in order.  [ARun]: one run of the tests by a runner (with the verbosity, failfast, findleaks). *)
Inductive act : Type :=
| APrint (what : text)
| AHelp
| ACovStart
| ASetLevel (level : Z)
| AInstallHandler
| ARun (verbosity : Z) (failfast findleaks : bool) (tests : list text)
| ACovEnd.                                    (* stop(), save(), html_report(), report() and the lines printed with them *)
(** How it ends: an exception (SystemExit with a status), a normal end, or still running after [rounds] runs *)
Inductive finish : Type :=
| Raised (e : exn)
| Returned
| Endless.
Record flags : Type := Flags {
  fl_forever : bool;
  fl_coverage : bool;
  fl_findleaks : bool;
  fl_failfast : bool;
  fl_catch : bool
}.
Section Main.
  Context (loader : text -> text -> load) (tests : text * text -> res (list text)) (search : text -> text -> bool).
  (** [run n l]: whether the run number [n] was successful *)
  Context (run : nat -> list text -> bool).
  (** runtests.py 256-262: while True *)
  Fixpoint forever (rounds n : nat) (one : res (list text)) (action : list text -> act) : list act * finish :=
    match rounds with
    | O => ([], Endless)
    | S rounds =>
        match one with
        | Err e => ([], Raised e)
        | Ok l => if run n l then let '(acts, f) := forever rounds (S n) one action in (action l :: acts, f)
                  else ([action l], Raised (ESystemExit 1))
        end
    end.
  (** runtests.py 198-281.  [has_coverage]: the package could be imported; [tree]: the directory of the tests, if it is one;
      the lines of load_modules on stderr are left out (see RunModel.runtests). *)
  Definition runtests_main (rounds : nat) (has_coverage : bool) (o : run_options) (fl : flags) (testsdir : text) (tree : option node)
    : list act * finish :=
    if fl_coverage fl && negb has_coverage then ([APrint (T "coverage package is not installed.")], Raised (ESystemExit 1))
    else match tree with
    | None => ([APrint (T "Tests directory is not found: " ++ testsdir); AHelp], Returned)
    | Some tree =>
        let v := verbosity o in
        let started := if fl_coverage fl then [ACovStart] else [] in
        let '(mods, _, r) := load_modules loader (list_dir tree [] testsdir) in
        match r with
        | Err e => (started, Raised e)
        | Ok _ =>
            let level := match log_level v with Some n => [ASetLevel n] | None => [] end in
            let handler := if fl_catch fl then [AInstallHandler] else [] in
            let '(includes, excludes) := patterns o in
            let one := load_tests tests search includes excludes (test_factories mods) in
            let action := ARun v (fl_failfast fl) (fl_findleaks fl) in
            let '(acts, f) :=
              if fl_forever fl then forever rounds 0 one action
              else match one with
                   | Err e => ([], Raised e)
                   | Ok l => ([action l], Raised (ESystemExit (if run O l then 0 else 1)))
                   end in
            let ended := match f with Endless => [] | _ => if fl_coverage fl then [ACovEnd] else [] end in
            (started ++ level ++ handler ++ acts ++ ended, f)
        end
    end.
End Main.
