(** * ProcProps: property theorems about the proc directory (C20, C21, C22, C71). *)
From Coq Require Import ZArith List Ascii String Bool Lia.
From Verif Require Import PyBase PyInt Platform RegexModel MapModel ProcModel ProcSpec ProcProofs ProcProofs2.
Import ListNotations.
Open Scope Z_scope.

(** ** C20 /proc/pid/stat parsing is robust to the program name *)
Theorem c20_state : forall pid program state numbers, is_space state = false -> state <> ")"%char -> (19 <= List.length numbers)%nat ->
  processState (stat_line pid program state numbers) =
    Ok (PState pid program [state] (nth 0 numbers 0) (nth 1 numbers 0) (nth 2 numbers 0) (nth 3 numbers 0) (nth 4 numbers 0)
               (nth 10 numbers 0) (nth 11 numbers 0) (nth 18 numbers 0)).
Proof. exact state_spec. Qed.
Print Assumptions c20_state.
Theorem c20_file_partial : forall P pid program state numbers, is_space state = false -> state <> ")"%char -> (19 <= List.length numbers)%nat ->
  no_cr program -> read_as P pid (T "stat") (stat_line pid program state numbers) ->
  readProcessStat P pid =
    Ok (PState pid program [state] (nth 0 numbers 0) (nth 1 numbers 0) (nth 2 numbers 0) (nth 3 numbers 0) (nth 4 numbers 0)
               (nth 10 numbers 0) (nth 11 numbers 0) (nth 18 numbers 0)).
Proof. exact read_stat. Qed.
Print Assumptions c20_file_partial.
(** The file is opened in text mode: a carriage return of the program name becomes a newline. *)
Theorem c20_carriage_return_refuted : exists P, pc_file P 7 (T "stat") = Ok (stat_line 7 (T "a" ++ [CR] ++ T "b") "S"%char (repeat 0 50)) /\ (forall d, pc_decode P d = Ok d) /\
  exists s, readProcessStat P 7 = Ok s /\ ps_program s = T "a" ++ [newline] ++ T "b".
Proof. exact cr_program. Qed.
Print Assumptions c20_carriage_return_refuted.
Example c20_ex :
  processState (T "42 (a) S 1 (b) R 7 42 42 34816 42 4194304 1 2 3 4 100 200 5 6 20 0 1 0 9999 1000 200" ++ [newline]) =
    Ok (PState 42 (T "a) S 1 (b") (T "R") 7 42 42 34816 42 100 200 9999) /\
  processState (T "42 (a) S 1") = Err EIndexError /\ processState (T "42 a") = Err EValueError.
Proof. repeat split; vm_compute; reflexivity. Qed.

(** ** C21 NUL-separated process lists round-trip *)
Theorem c21_list_partial : forall P pid key args, Forall (fun a => ~ In NUL a) args -> Forall no_cr args -> read_as P pid key (nul_terminated args) ->
  readProcessProcList P pid key = Ok args.
Proof. exact list_round. Qed.
Print Assumptions c21_list_partial.
Theorem c21_no_last_nul : forall P pid key args last, Forall (fun a => ~ In NUL a) args -> Forall no_cr args -> ~ In NUL last -> no_cr last -> last <> [] ->
  read_as P pid key (nul_terminated args ++ last) -> readProcessProcList P pid key = Ok (args ++ [last]).
Proof. exact list_no_last. Qed.
Print Assumptions c21_no_last_nul.
Theorem c21_carriage_return_refuted : exists P args, read_as P 7 (T "cmdline") (nul_terminated args) /\ Forall (fun a => ~ In NUL a) args /\
  readProcessProcList P 7 (T "cmdline") = Ok [T "a" ++ [newline] ++ T "b"] /\ args = [T "a" ++ [CR] ++ T "b"].
Proof. exact cr_argument. Qed.
Print Assumptions c21_carriage_return_refuted.
Theorem c21_unreadable : forall P pid key e, pc_file P pid key = Err (EOSError e) -> readProcessProcList P pid key = Err EProcError.
Proof. exact list_unreadable. Qed.
Print Assumptions c21_unreadable.
Theorem c21_cmdline : forall P pid esc args, args <> [] -> readProcessProcList P pid (T "cmdline") = Ok args -> readProcessCmdline P pid esc = Ok (Some args).
Proof. exact cmdline_list. Qed.
Print Assumptions c21_cmdline.
Theorem c21_fallback : forall P pid esc, readProcessProcList P pid (T "cmdline") = Ok [] \/ readProcessProcList P pid (T "cmdline") = Err EProcError ->
  readProcessCmdline P pid esc =
    match readProcessStat P pid with
    | Ok s => Ok (Some [if esc then T "[" ++ ps_program s ++ T "]" else ps_program s])
    | Err EProcError => Ok None
    | Err e => Err e
    end.
Proof. exact cmdline_fallback. Qed.
Print Assumptions c21_fallback.
Theorem c21_statm : forall P pid numbers, read_as P pid (T "statm") (statm_line numbers) -> readProcessStatm P pid = Ok (map (fun n => n * pc_page P) numbers).
Proof. exact statm_spec. Qed.
Print Assumptions c21_statm.
Theorem c21_processes : forall P pid, In pid (readProcesses P) <-> exists name, In name (pc_listdir P) /\ py_int 10 name = Ok pid.
Proof. exact processes_spec. Qed.
Print Assumptions c21_processes.
Theorem c21_search : forall P name pid found, searchProcessesByName P name = (found, Ok tt) ->
  (In pid found <-> In pid (readProcesses P) /\ exists program l, readProcessCmdline P pid true = Ok (Some (program :: l)) /\
                      (program = name \/ exists dir, program = dir ++ T "/" ++ name)).
Proof. exact search_names. Qed.
Print Assumptions c21_search.
Theorem c21_search_first : forall P name pid, searchProcessByName P name = Ok pid -> exists l r, searchProcessesByName P name = (pid :: l, r).
Proof. exact search_first. Qed.
Print Assumptions c21_search_first.
Example c21_ex :
  let P := Proc (fun pid key => if text_eqb key (T "cmdline") then (if pid =? 2 then Ok [] else Ok (nul_terminated [T "/bin/sh"; []; T "-c"; []])) else
                                if pid =? 2 then Ok (T "2 (kthreadd) S 0 0 0 0 -1 0 0 0 0 0 0 0 0 0 20 0 1 0 5 0") else Err (EOSError 2))
                (fun _ _ => Err (EOSError 2)) [T "1"; T "stat"; T "2"] (Err (EOSError 2)) (fun d => Ok d) 4096 in
  readProcesses P = [1; 2] /\ readProcessProcList P 1 (T "cmdline") = Ok [T "/bin/sh"; []; T "-c"; []] /\
  readProcessCmdline P 2 true = Ok (Some [T "[kthreadd]"]) /\ readProcessStat P 1 = Err EProcError /\
  searchProcessesByName P (T "sh") = ([1], Ok tt) /\ searchProcessByName P (T "bash") = Err EProcError.
Proof. cbv zeta. repeat split; vm_compute; reflexivity. Qed.

(** ** C22 Environment dump truncation *)
Theorem c22_first_fit : forall max env kept removed, truncate_env max 0 env = (kept, removed) ->
  exists keep, first_fit max env keep /\ kept = selected keep env /\ removed = zlen (selected (map negb keep) env).
Proof. exact truncate_first_fit. Qed.
Print Assumptions c22_first_fit.
(** Only one selection is a first fit. *)
Theorem c22_unique : forall max env k1 k2, first_fit max env k1 -> first_fit max env k2 -> k1 = k2.
Proof. exact first_fit_unique. Qed.
Print Assumptions c22_unique.
Theorem c22_total : forall max env length kept removed, length <= max -> truncate_env max length env = (kept, removed) -> length + total kept <= max.
Proof. exact truncate_total. Qed.
Print Assumptions c22_total.
Theorem c22_counts : forall max env length kept removed, truncate_env max length env = (kept, removed) -> zlen kept + removed = zlen env.
Proof. exact truncate_counts. Qed.
Print Assumptions c22_counts.
Theorem c22_text : forall repr max vars kept, max <> 0 -> (forall nv, In nv vars -> ~ In "="%char (fst nv)) ->
  forall env, env = map (fun nv => fst nv ++ T "=" ++ snd nv) vars -> forall keep, first_fit max env keep -> kept = selected keep vars ->
  format_env repr (Some max) env = Ok (join (T ", ") (map (fun nv => fst nv ++ T "=" ++ repr (snd nv)) kept) ++
    (if (List.length kept =? List.length vars)%nat then [] else T ", ... (skip " ++ str_int (zlen vars - zlen kept) ++ T " vars)")).
Proof. exact env_text. Qed.
Print Assumptions c22_text.
(** An environment string without "=" (execve accepts it): the dump raises TypeError. *)
Theorem c22_no_equals_refuted : exists env, forall repr, format_env repr (Some 100) env = Err ETypeError.
Proof. exact (ex_intro _ [T "A=1"; T "oops"] no_equals). Qed.
Print Assumptions c22_no_equals_refuted.
Example c22_ex :
  truncate_env 10 0 [T "A=1"; T "LONG=123456"; T "B=22"; T "C=3"] = ([T "A=1"; T "B=22"; T "C=3"], 1) /\
  first_fit 10 [T "A=1"; T "LONG=123456"; T "B=22"; T "C=3"] [true; false; true; true] /\
  format_env (fun t => T "'" ++ t ++ T "'") (Some 10) [T "A=1"; T "LONG=123456"; T "B=22"; T "C=3"] = Ok (T "A='1', B='22', C='3', ... (skip 1 vars)").
Proof.
  split; [reflexivity|]. split; [|vm_compute; reflexivity]. split; [reflexivity|]. intros i v. do 4 (destruct i as [|i]; [cbn; intros [= <-]; reflexivity|]). destruct i; discriminate.
Qed.

(** ** C71 dumpProcessInfo shows what the proc directory says *)
Theorem c71_info : forall P repr p pid max_length program state numbers args env cwd env_text l1 l2 l3 ur ue us uf gr ge gs gf,
  running_linux p = true ->
  is_space state = false -> state <> ")"%char -> (19 <= List.length numbers)%nat -> no_cr program ->
  read_as P pid (T "stat") (stat_line pid program state numbers) ->
  Forall (fun a => ~ In NUL a) args -> Forall no_cr args -> read_as P pid (T "cmdline") (nul_terminated args) ->
  Forall (fun a => ~ In NUL a) env -> Forall no_cr env -> read_as P pid (T "environ") (nul_terminated env) ->
  format_env repr max_length env = Ok env_text ->
  pc_link P pid (T "cwd") = Ok cwd ->
  Forall other_line l1 -> Forall other_line l2 -> Forall other_line l3 ->
  read_as P pid (T "status") (List.concat (l1 ++ ids_line (T "Uid") ur ue us uf :: l2 ++ ids_line (T "Gid") gr ge gs gf :: l3)) ->
  dumpProcessInfo P repr p pid max_length = Ok
    [T "Process ID: " ++ str_int pid ++ T " (parent: " ++ str_int (nth 0 numbers 0) ++ T ")";
     T "Process state: " ++ [state] ++ match dget text_eqb [state] STATE_NAMES with Some n => T " (" ++ n ++ T ")" | None => [] end;
     T "Process command line: " ++ repr_list repr args;
     T "Process environment: " ++ env_text;
     T "Process working directory: " ++ cwd;
     owner_line (T "User") ur ue; owner_line (T "Group") gr ge].
Proof. exact info_spec. Qed.
Print Assumptions c71_info.
(** No permission: the identifier only *)
Theorem c71_denied : forall P repr p pid max_length e, running_linux p = true -> (forall key, pc_file P pid key = Err (EOSError e)) -> (forall key, pc_link P pid key = Err (EOSError e)) ->
  dumpProcessInfo P repr p pid max_length = Ok [T "Process ID: " ++ str_int pid].
Proof. exact info_denied. Qed.
Print Assumptions c71_denied.
Theorem c71_other_system : forall P repr p pid max_length, running_linux p = false -> dumpProcessInfo P repr p pid max_length = Ok [T "Process ID: " ++ str_int pid].
Proof. exact info_other. Qed.
Print Assumptions c71_other_system.
Theorem c71_boot : forall P l1 l2 n, Forall (fun l => whole l /\ ~ In CR l /\ forall r, l <> T "btime " ++ r) l1 -> Forall (fun l => whole l /\ ~ In CR l) l2 ->
  forall data, data = List.concat (l1 ++ (T "btime " ++ str_int n ++ [newline]) :: l2) -> pc_stat P = Ok data -> pc_decode P data = Ok data -> boot_seconds P = Ok n.
Proof. exact boot_spec. Qed.
Print Assumptions c71_boot.
Example c71_ex :
  let file key := if text_eqb key (T "stat") then stat_line 7 (T "sh") "S"%char (1 :: repeat 0 18) else
                  if text_eqb key (T "cmdline") then nul_terminated [T "sh"] else
                  if text_eqb key (T "environ") then nul_terminated [T "A=1"] else
                  List.concat [T "Name:" ++ [TAB] ++ T "sh" ++ [newline]; ids_line (T "Uid") 1000 0 0 0; ids_line (T "Gid") 5 5 5 5; T "Threads: 1" ++ [newline]] in
  let P := Proc (fun _ key => Ok (file key)) (fun _ _ => Ok (T "/root")) [] (Ok (T "cpu 1 2" ++ [newline] ++ T "btime 77" ++ [newline])) (fun d => Ok d) 4096 in
  dumpProcessInfo P (fun t => T "'" ++ t ++ T "'") linux_x86_64 7 None = Ok
    [T "Process ID: 7 (parent: 1)"; T "Process state: S (sleeping)"; T "Process command line: ['sh']"; T "Process environment: ['A=1']";
     T "Process working directory: /root"; T "User identifier: 1000 (effective: 0)"; T "Group identifier: 5"] /\
  boot_seconds P = Ok 77.
Proof. cbv zeta. split; vm_compute; reflexivity. Qed.
(** A stat file that ends early (C20): IndexError, which is not the documented ProcError *)
Theorem c20_short : forall pid program state numbers, is_space state = false -> state <> ")"%char -> (List.length numbers < 19)%nat ->
  processState (stat_line pid program state numbers) = Err EIndexError.
Proof. exact state_short. Qed.
Print Assumptions c20_short.
Example c20_short_ex : processState (stat_line 7 (T "sh") "S"%char [1; 2; 3]) = Err EIndexError.
Proof. vm_compute. reflexivity. Qed.
(** The names of the states and the text of a list (C71) *)
Theorem c71_states : forall state, dget text_eqb [state] STATE_NAMES = state_meaning state.
Proof. exact state_names. Qed.
Print Assumptions c71_states.
Theorem c71_list_text : forall repr a l, repr_list repr [] = T "[]" /\ repr_list repr (a :: l) = T "[" ++ repr a ++ List.concat (map (fun x => T ", " ++ repr x) l) ++ T "]".
Proof. exact list_text. Qed.
Print Assumptions c71_list_text.
Example c71_list_text_ex : repr_list (fun t => T "'" ++ t ++ T "'") [T "ls"; T "-l"] = T "['ls', '-l']".
Proof. reflexivity. Qed.
