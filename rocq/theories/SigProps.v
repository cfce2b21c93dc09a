(** * SigProps: C24, C25, exit messages and signal names (ptrace/signames.py, ptrace/debugger/process_event.py,
    ptrace/process_tools.py). *)
From Coq Require Import ZArith List Ascii String Bool Lia.
From Verif Require Import PyBase Platform DbgModel DbgSpec SigModel SigSpec SigProofs.
Import ListNotations.
Open Scope Z_scope.

(** ** C24 *)

(** The text of a ProcessExit event: the signal if there is one (0 counts as none), else the code, "exited normally" for
    code 0. *)
Theorem c24_exit_event : forall ns pid signum exitcode,
  exit_message ns pid signum exitcode =
    T "Process " ++ str_int pid ++
    (if match signum with Some n => negb (n =? 0) | None => false end
     then T " killed by signal " ++ signalName ns (match signum with Some n => n | None => 0 end)
     else match exitcode with
          | Some 0 => T " exited normally"
          | Some n => T " exited with code " ++ str_int n
          | None => T " terminated abnormally"
          end).
Proof. exact exit_texts. Qed.
Print Assumptions c24_exit_event.
Example c24_exit_event_ex :
  exit_message linux_signals 42 (Some 6) None = T "Process 42 killed by signal SIGABRT" /\
  exit_message linux_signals 42 None (Some 0) = T "Process 42 exited normally" /\
  exit_message linux_signals 42 None (Some 3) = T "Process 42 exited with code 3".
Proof. vm_compute. auto. Qed.

(** formatProcessStatus on every wait status the kernel produces ([encode]: DbgSpec). *)
Theorem c24_status_text : forall ns title m, valid m ->
  formatProcessStatus ns (encode m) title =
    title ++ match m with
             | Exited 0 => T " exited normally"
             | Exited code => T " exited with code " ++ str_int code
             | Killed signum core => T " killed by signal " ++ signalName ns signum ++ (if core then T " (core dumped)" else [])
             | Stopped signum => T " stopped by signal " ++ signalName ns signum
             | TraceEvent _ => T " stopped by signal " ++ signalName ns 5
             end.
Proof. exact status_text. Qed.
Print Assumptions c24_status_text.
Example c24_status_text_ex :
  valid (Killed 11 true) /\ encode (Killed 11 true) = 139 /\
  formatProcessStatus linux_signals 139 (T "prog") = T "prog killed by signal SIGSEGV (core dumped)".
Proof. vm_compute. intuition discriminate. Qed.

(** Whatever the status, core dump is mentioned exactly when bit 7 is set, and a process that is not reported as
    killed or stopped "exited normally" exactly when the exit code is 0. *)
Theorem c24_core_bit : forall ns status title,
  (exists t, formatProcessStatus ns status title = t ++ T " (core dumped)" /\ Z.testbit status 7 = true) \/
  (Z.testbit status 7 = false /\
   formatProcessStatus ns status title =
     if WIFSTOPPED status then title ++ T " stopped by signal " ++ signalName ns (WSTOPSIG status)
     else if WIFSIGNALED status then title ++ T " killed by signal " ++ signalName ns (WTERMSIG status)
     else if WEXITSTATUS status =? 0 then title ++ T " exited normally"
     else title ++ T " exited with code " ++ str_int (WEXITSTATUS status)).
Proof. exact core_text. Qed.
Print Assumptions c24_core_bit.
Example c24_core_bit_ex : Z.testbit 134 7 = true /\ formatProcessStatus linux_signals 134 (T "p") = T "p killed by signal SIGABRT" ++ T " (core dumped)".
Proof. vm_compute. auto. Qed.

(** ** C25 *)

(** A number with a SIG* name in the signal module is shown by one of its names... *)
Theorem c25_known : forall ns n, known_signal ns n -> names_signal ns n (signalName ns n).
Proof. exact known_name. Qed.
Print Assumptions c25_known.
(** ...by the best preferred one, if any... *)
Theorem c25_preferred : forall ns n name, n <> 0 -> names_signal ns n name -> In name preferred ->
  (forall other, names_signal ns n other -> In other preferred -> other = name \/ before preferred name other) ->
  signalName ns n = name.
Proof. exact preferred_name. Qed.
Print Assumptions c25_preferred.
(** ...else by the first one. *)
Theorem c25_first : forall ns1 ns2 n name, n <> 0 -> (exists r, name = T "SIG" ++ r) ->
  (forall other, ~ names_signal ns1 n other) ->
  (forall other, names_signal (ns1 ++ (name, n) :: ns2) n other -> ~ In other preferred) ->
  signalName (ns1 ++ (name, n) :: ns2) n = name.
Proof. exact first_name. Qed.
Print Assumptions c25_first.
(** Other numbers, and 0, are shown as signal<n>. *)
Theorem c25_unknown : forall ns n, ~ known_signal ns n -> signalName ns n = T "signal<" ++ str_int n ++ T ">".
Proof. exact unknown_name. Qed.
Print Assumptions c25_unknown.
(** Distinct numbers, known or not, have distinct names. *)
Theorem c25_distinct : forall ns a b, NoDup (map fst ns) -> signalName ns a = signalName ns b -> a = b.
Proof. exact names_distinct. Qed.
Print Assumptions c25_distinct.
Example c25_ex :
  map (signalName linux_signals) [6; 1; 17; 29; 2; 11; 0; 40; -1] =
  [T "SIGABRT"; T "SIGHUP"; T "SIGCHLD"; T "SIGPOLL"; T "SIGINT"; T "SIGSEGV"; T "signal<0>"; T "signal<40>"; T "signal<-1>"].
Proof. vm_compute. reflexivity. Qed.
Example c25_distinct_ex : NoDup (map fst linux_signals).
Proof.
  unfold linux_signals. cbn [map fst].
  repeat (constructor; [cbn [In]; intros H; repeat (destruct H as [H|H]; [discriminate H|]); exact H|]). constructor.
Qed.
Example c25_known_ex : known_signal linux_signals 29 /\ names_signal linux_signals 29 (T "SIGIO") /\ signalName linux_signals 29 = T "SIGPOLL".
Proof.
  assert (names_signal linux_signals 29 (T "SIGIO")) as H.
  { split; [unfold linux_signals; cbn [In]; tauto|]. exists (T "IO"). reflexivity. }
  split; [split; [discriminate|eauto]|]. split; [exact H|reflexivity].
Qed.
(** With the signal module of Python on Linux every number has the name of the header. *)
Theorem c25_linux : forall n,
  signalName linux_signals n = match dget Z.eqb n linux_header_signals with Some name => name | None => T "signal<" ++ str_int n ++ T ">" end.
Proof. exact linux_names. Qed.
Print Assumptions c25_linux.
(** The other events (C24) *)
Theorem c24_other_events : forall ns pid_of id s q,
  event_message ns pid_of (ProcessExecution id) = T "Process " ++ str_int (pid_of id) ++ T " execution" /\
  event_message ns pid_of (NewProcessEvent id) = T "New process " ++ str_int (pid_of id) /\
  event_message ns pid_of (ProcessSignal s q) = T "Signal " ++ signalName ns s.
Proof. exact event_texts. Qed.
Print Assumptions c24_other_events.
Example c24_other_events_ex : event_message linux_signals (fun _ => 77) (ProcessSignal 19 0%nat) = T "Signal SIGSTOP" /\
  event_message linux_signals (fun _ => 77) (NewProcessEvent 0%nat) = T "New process 77".
Proof. split; vm_compute; reflexivity. Qed.
