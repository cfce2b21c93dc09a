(** * RunMainProps: the options of the test runner (C130). *)
From Coq Require Import ZArith List Ascii String Bool.
From Verif Require Import PyBase RunModel RunMainModel RunMainSpec RunMainProofs.
Import ListNotations.
Open Scope Z_scope.

(** ** C130 *)
(** The selected tests (those of C115) are run once, the status telling whether they succeeded; with --forever they are run
    again and again until a run fails, so that the status is never 0. *)
Theorem c130_runs : forall loader tests search run rounds has o fl dir tree r0 l lines e,
  runtests loader tests search r0 o dir tree = (l, lines, e) -> (fl_coverage fl = true -> has = true) ->
  (forall m path e, In (m, path) (list_dir tree [] dir) -> m <> T "runtests" -> loader m path <> LAbort e) -> (forall f e, tests f <> Err e) ->
  exists acts f, runtests_main loader tests search run rounds has o fl dir (Some tree) = (acts, f) /\
    if fl_forever fl then
      (f = Endless /\ runs acts = repeat l rounds /\ (forall i, (i < rounds)%nat -> run i l = true)) \/
      (f = Raised (ESystemExit 1) /\ exists k, (k < rounds)%nat /\ runs acts = repeat l (S k) /\ run k l = false /\ (forall i, (i < k)%nat -> run i l = true))
    else runs acts = [l] /\ f = Raised (ESystemExit (if run O l then 0 else 1)).
Proof. exact main_loaded. Qed.
Print Assumptions c130_runs.
(** Each runner gets the verbosity, --failfast and --findleaks as given. *)
Theorem c130_runners : forall loader tests search run rounds has o fl dir tree acts f v ff leaks l,
  runtests_main loader tests search run rounds has o fl dir tree = (acts, f) -> In (ARun v ff leaks l) acts ->
  v = (if ro_quiet o then 0 else if ro_verbose o then 2 else 1) /\ ff = fl_failfast fl /\ leaks = fl_findleaks fl.
Proof. exact main_runners. Qed.
Print Assumptions c130_runners.
(** --coverage without the package: nothing is run and the status is 1. *)
Theorem c130_no_package : forall loader tests search run rounds o fl dir tree, fl_coverage fl = true ->
  runtests_main loader tests search run rounds false o fl dir tree = ([APrint (T "coverage package is not installed.")], Raised (ESystemExit 1)).
Proof. exact main_no_coverage. Qed.
Print Assumptions c130_no_package.
(** Without the directory of the tests nothing is run, but it is not an error for the caller. *)
Theorem c130_no_directory : forall loader tests search run rounds has o fl dir, (fl_coverage fl = true -> has = true) ->
  runtests_main loader tests search run rounds has o fl dir None = ([APrint (T "Tests directory is not found: " ++ dir); AHelp], Returned).
Proof. exact main_no_tests. Qed.
Print Assumptions c130_no_directory.
(** A measure that is started is ended, once and after all the runs, whatever the tests do, if the modules could be loaded. *)
Theorem c130_measured_partial : forall loader tests search run rounds has o fl dir tree acts f,
  runtests_main loader tests search run rounds has o fl dir tree = (acts, f) -> In ACovStart acts -> f <> Endless ->
  (forall m path e, loader m path <> LAbort e) ->
  exists between, acts = ACovStart :: between ++ [ACovEnd] /\ ~ In ACovStart between /\ ~ In ACovEnd between.
Proof. exact main_measured. Qed.
Print Assumptions c130_measured_partial.
(** The modules are loaded before the try: with a syntax error in one of them nothing is saved or reported. *)
Theorem c130_measured_refuted : exists loader tests search run rounds o fl dir tree e,
  runtests_main loader tests search run rounds true o fl dir tree = ([ACovStart], Raised e).
Proof.
  exists (fun _ _ => LAbort ESyntaxError), (fun _ => Ok []), (fun _ _ => true), (fun _ _ => true), 1%nat, (RunOptions false None false false), (Flags false true false false false), (T "tests"), (Some (NDir [(T "test_a.py", NFile)])).
  eexists. vm_compute. reflexivity.
Qed.
Print Assumptions c130_measured_refuted.
(** Every uncollectable object is reported exactly once, in the order they were made, except those left by the failed
    tests at the end; reports name successful tests. *)
Theorem c130_leaks : forall tests leaks rest, find_leaks tests [] = (leaks, rest) ->
  made_by tests = reported leaks ++ rest /\
  (exists before after, tests = before ++ after /\ (forall t, In t after -> t_success t = false) /\ rest = made_by after /\
    match rev before with [] => True | t :: _ => t_success t = true end) /\
  (forall name l, In (name, l) leaks -> l <> [] /\ exists t, In t tests /\ t_name t = name /\ t_success t = true).
Proof. intros tests leaks rest H. split; [exact (leaks_all tests [] leaks rest H)|]. split; [exact (leaks_left tests leaks rest H)|exact (leaks_successful tests [] leaks rest H)]. Qed.
Print Assumptions c130_leaks.
(** Each test is reported with its own objects if all the tests succeed. *)
Theorem c130_owner_partial : forall tests, (forall t, In t tests -> t_success t = true) -> find_leaks tests [] = (flat_map own_leak tests, []).
Proof. exact leaks_own. Qed.
Print Assumptions c130_owner_partial.
(** Otherwise the objects of a failed test are put down to the next successful one, or lost. *)
Theorem c130_owner_refuted : exists tests clean, In clean tests /\ t_garbage clean = [] /\
  In (t_name clean, [T "<leak>"]) (fst (find_leaks tests [])) /\ snd (find_leaks tests []) <> [].
Proof.
  exists [OneTest (T "bad") false [T "<leak>"]; OneTest (T "good") true []; OneTest (T "last") false [T "<other>"]], (OneTest (T "good") true []).
  split; [right; now left|]. split; [reflexivity|]. split; [now left|]. vm_compute. discriminate.
Qed.
Print Assumptions c130_owner_refuted.
(** The report: a title, then for each test its name and its objects, and nothing else. *)
Theorem c130_report : forall leaks, (leak_lines [] = []) /\
  (leaks <> [] -> List.length (leak_lines leaks) = (1 + List.length leaks + List.length (reported leaks))%nat) /\
  (forall name l, In (name, l) leaks -> exists before after,
    leak_lines leaks = before ++ (T "    " ++ name ++ T ":") :: map (fun x => T "        " ++ x) l ++ after /\ before <> []).
Proof. intros leaks. split; [reflexivity|]. split; [exact (leak_lines_count leaks)|exact (leak_lines_shown leaks)]. Qed.
Print Assumptions c130_report.
Example c130_ex :
  let tree := NDir [(T "test_a.py", NFile)] in
  let loader (_ _ : text) := LMod [T "TestA"; T "os"] in
  let tests (f : text * text) : res (list text) := Ok [T "a.one"; T "a.two"] in
  runtests_main loader tests contains (fun n _ => Nat.ltb n 2) 5 true (RunOptions false (Some [T "one"]) false true) (Flags true true true false true) (T "tests") (Some tree) =
  ([ACovStart; ASetLevel 30; AInstallHandler; ARun 2 false true [T "a.one"]; ARun 2 false true [T "a.one"]; ARun 2 false true [T "a.one"]; ACovEnd], Raised (ESystemExit 1)) /\
  leak_lines (fst (find_leaks [OneTest (T "t1") true [T "<a>"; T "<b>"]; OneTest (T "t2") true []] [])) =
  [T "1 tests leaks:"; T "    t1:"; T "        <a>"; T "        <b>"].
Proof. split; vm_compute; reflexivity. Qed.
