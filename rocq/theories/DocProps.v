(** * DocProps: C133, the examples of the documentation and their test. *)
From Coq Require Import ZArith List Ascii String Bool.
From Verif Require Import PyBase HostModel DocModel DocSpec DocProofs DocProofs2 DocProofs3 DocProofs4.
Import ListNotations.
Open Scope Z_scope.

(** ** C133 *)
(** The examples found in a docstring are those that are written in it. *)
Theorem c133_read : forall doc l, reads doc l -> get_examples doc = Ok (map (fun x => Ex (fst x) (snd x)) (shown_of l)).
Proof. exact read_doc. Qed.
Print Assumptions c133_read.
(** If the examples of the six modules are right, each module is announced and the script ends normally. *)
Theorem c133_succeeds : forall exec import sys_path a c, c <> "/"%char ->
  (forall n, In n tested_modules -> exists m, imports import (sys_path ++ [a ++ [c]]) n m /\ readable m /\ right_examples exec m) ->
  main exec import sys_path (a ++ [c] ++ T "/test_doc.py") = (report tested_modules, Ok tt).
Proof. exact main_right. Qed.
Print Assumptions c133_succeeds.
(** The script ends with status 1 at the first of the modules that has a wrong example. *)
Theorem c133_fails : forall exec import sys_path a c before n after m, c <> "/"%char -> tested_modules = before ++ n :: after ->
  (forall n, In n before -> exists m, imports import (sys_path ++ [a ++ [c]]) n m /\ readable m /\ right_examples exec m) ->
  imports import (sys_path ++ [a ++ [c]]) n m -> readable m -> ~ right_examples exec m ->
  main exec import sys_path (a ++ [c] ++ T "/test_doc.py") = (report before ++ [first_line n], Err (ESystemExit 1)).
Proof. exact main_wrong. Qed.
Print Assumptions c133_fails.
(** All examples of the package are right: the functions print what their documentation shows. *)
Theorem c133_examples : forall path m, mod_at ptrace_package path m -> readable m /\ right_examples ptrace_exec m.
Proof. exact ptrace_right. Qed.
Print Assumptions c133_examples.
(** The script succeeds, wherever it is. *)
Theorem c133_ptrace : forall sys_path a c, c <> "/"%char -> main ptrace_exec ptrace_import sys_path (a ++ [c] ++ T "/test_doc.py") = (report tested_modules, Ok tt).
Proof. exact ptrace_tested. Qed.
Print Assumptions c133_ptrace.
(** The script may succeed although an example of the package is wrong: that of ip_int2str is in no tested module. *)
Theorem c133_untested_refuted : exists exec sys_path file path m, mod_at ptrace_package path m /\ readable m /\ ~ right_examples exec m /\
  main exec ptrace_import sys_path file = (report tested_modules, Ok tt).
Proof. exact untested. Qed.
Print Assumptions c133_untested_refuted.
(** A register of a FakeProcess has the last value it was set to. *)
Theorem c133_fake : forall sets name, fake_getreg (fold_left (fun regs nv => fake_setreg regs (fst nv) (snd nv)) sets FakeProcess) name =
  match find (fun nv : text * Z => text_eqb (fst nv) name) (rev sets) with Some nv => Ok (snd nv) | None => Err EKeyError end.
Proof. exact fake_registers. Qed.
Print Assumptions c133_fake.
(** A moment is shown as it is in the calendar, microseconds included. *)
Theorem c133_moment : forall zone t, exists_moment t -> (do u <- timestampUNIX_us zone (since_1970 t) false; Ok (repr_datetime u)) = Ok (shown_moment t).
Proof. exact timestamp_utc. Qed.
Print Assumptions c133_moment.
Theorem c133_local_moment : forall zone t t', exists_moment t -> exists_moment t' -> since_1970 t' = since_1970 t + zone 0 * 1000000 ->
  (do u <- timestampUNIX_us zone (since_1970 t) true; Ok (repr_datetime u)) = Ok (shown_moment t').
Proof. exact timestamp_local. Qed.
Print Assumptions c133_local_moment.
(** Seconds given as a float [n / 2 ^ k] are rounded to the nearest microsecond, to the even one of two. *)
Theorem c133_float : forall n k, 0 <= k -> let us := float_us n k in
  2 * Z.abs (n * 1000000 - us * 2 ^ k) <= 2 ^ k /\ (2 * Z.abs (n * 1000000 - us * 2 ^ k) = 2 ^ k -> Z.even us = true).
Proof. exact float_nearest. Qed.
Print Assumptions c133_float.

Example c133_ex : exists_moment (Moment 2006 7 29 12 20 44 370000) /\ since_1970 (Moment 2006 7 29 12 20 44 370000) = float_us 1210240880470917 20 /\
  shown_moment (Moment 2006 7 29 12 20 44 370000) = T "datetime.datetime(2006, 7, 29, 12, 20, 44, 370000)" /\
  exists_moment (Moment 2000 2 29 0 0 0 0) /\ ~ exists_moment (Moment 1900 2 29 0 0 0 0) /\
  (exists l, reads doc_timestampUNIX l) /\ (forall l, reads doc_timestampUNIX l -> shown_of l =
    [([T "timestampUNIX(0, False)"], [T "datetime.datetime(1970, 1, 1, 0, 0)"]); ([T "timestampUNIX(1154175644.37, False)"], [T "datetime.datetime(2006, 7, 29, 12, 20, 44, 370000)"])]) /\
  (exists n, In n tested_modules /\ exists m, imports ptrace_import [T "/src"] n m /\ mod_members m <> []).
Proof.
  split; [repeat split; vm_compute; congruence|]. split; [vm_compute; reflexivity|]. split; [reflexivity|]. split; [repeat split; vm_compute; congruence|].
  split; [intros (_ & _ & [_ H] & _); apply H; vm_compute; reflexivity|]. split; [apply reads_ok; vm_compute; reflexivity|]. split.
  - intros l R. pose proof (read_doc _ _ R) as E. assert (C : get_examples doc_timestampUNIX = Ok (map as_example
      [([T "timestampUNIX(0, False)"], [T "datetime.datetime(1970, 1, 1, 0, 0)"]); ([T "timestampUNIX(1154175644.37, False)"], [T "datetime.datetime(2006, 7, 29, 12, 20, 44, 370000)"])]))
      by (vm_compute; reflexivity).
    rewrite C in E. injection E as E. destruct (shown_of l) as [|[s1 w1] [|[s2 w2] [|]]]; cbn in E; try discriminate E. now injection E as <- <- <- <-.
  - exists (T "ptrace.tools"). split; [cbn; tauto|]. destruct (walk ptrace_package [T "tools"]) as [m|] eqn:W; [|vm_compute in W; discriminate]. exists m. split.
    + change (T "ptrace.tools") with (join (T ".") [T "ptrace"; T "tools"]). apply imports_ok; [eexists; now split|vm_compute; reflexivity].
    + vm_compute in W. injection W as <-. discriminate.
Qed.
