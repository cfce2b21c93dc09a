(** * BindProps: C140 — calls give functions the arguments they take. *)
From Coq Require Import List Bool PArith Arith.
From Verif Require Import BindNames BindModel BindSpec BindProofs BindProofs2 BindCode.
Import ListNotations.
Open Scope pname_scope.

(** A call raises TypeError for its arguments exactly if they are not accepted. *)
Theorem c140_accepted : forall s V (vals : list V) keys, well_formed s -> ((exists f, bind s vals keys = Some f) <-> accepted s (length vals) (map fst keys)).
Proof. exact bind_exists. Qed.
Print Assumptions c140_accepted.
(** Otherwise every parameter has exactly the value of its position or of its keyword, or its default value; the values without a parameter are in *args and **kw, in their order. *)
Theorem c140_values : forall s V (vals : list V) keys f, well_formed s -> bind s vals keys = Some f ->
  map fst (f_slots f) = s_args s ++ map fst (s_only s) /\ (forall a x, In (a, x) (f_slots f) -> value_of s vals keys a x) /\
  f_rest f = skipn (length (s_args s)) vals /\ f_named f = filter (fun y => negb (mem (fst y) (s_args s ++ map fst (s_only s)))) keys.
Proof. exact (fun s V vals keys f Hs => bind_values s Hs vals keys f). Qed.
Print Assumptions c140_values.
(** The parameters of all functions and methods have different names. *)
Theorem c140_formed : forall f s, In (f, s) functions \/ (exists k, In k classes /\ In (f, s) (k_methods k)) -> well_formed s.
Proof. exact signatures_formed. Qed.
Print Assumptions c140_formed.
(** No call of a function, class or method of the project, whatever the class of the object, raises TypeError for its arguments. *)
Theorem c140_calls : forall x, In x calls -> call_works functions classes x.
Proof. exact calls_work. Qed.
Print Assumptions c140_calls.
(** A method that replaces the one of the parent class accepts whatever that accepts... *)
Theorem c140_override_partial : forall k m s s0, overrides classes k m s s0 -> m <> "__init__" -> ~ (k_name k = "SyscallTracer" /\ m = "createChild") ->
  forall n keys, accepted s0 n keys -> accepted s n keys.
Proof. exact override_accepts. Qed.
Print Assumptions c140_override_partial.
(** ... except SyscallTracer.createChild(), which has no parameter env. *)
Theorem c140_override_refuted : exists k s s0, k_name k = "SyscallTracer" /\ overrides classes k "createChild" s s0 /\ accepted s0 3 [] /\ ~ accepted s 3 [].
Proof. exact create_child. Qed.
Print Assumptions c140_override_refuted.

(** def f(a, b, c=..., *args, x, **kw); wrong calls; waitSignals( *signals, pid=...) with three signals; a call of the debugger *)
Example c140_ex :
  let s := Sig ["a"; "b"; "c"] 1 true [("x", false)] true in
  bind s [1; 2] [("x", 5)] = Some (Frame [("a", Some 1); ("b", Some 2); ("c", None); ("x", Some 5)] [] [])
  /\ bind s [1] [("x", 5); ("pid", 6); ("b", 7)] = Some (Frame [("a", Some 1); ("b", Some 7); ("c", None); ("x", Some 5)] [] [("pid", 6)])
  /\ bind s [1; 2; 3; 4; 5] [("x", 6)] = Some (Frame [("a", Some 1); ("b", Some 2); ("c", Some 3); ("x", Some 6)] [4; 5] [])
  /\ bind s [1] [("x", 5)] = None /\ bind s [1; 2] [] = None /\ bind s [1; 2] [("a", 3); ("x", 5)] = None /\ bind s [1; 2] [("pid", 3); ("pid", 4); ("x", 5)] = None
  /\ bind (Sig ["a"; "b"; "c"] 1 false [] false) [1; 2; 3; 4] [] = None /\ bind (Sig ["a"; "b"; "c"] 1 false [] false) [1; 2] [("x", 3)] = None
  /\ map (fun s => bind s [0; 5; 19; 2] [("pid", 100)]) (reached functions classes (TMethod "PtraceDebugger" "waitSignals")) = [Some (Frame [("self", Some 0)] [5; 19; 2] [("pid", 100)])]
  /\ In (Call (TMethod "PtraceDebugger" "waitSignals") (AtLeast 0) ["pid"]) calls
  /\ length (reached functions classes (TMethod "SignalInfo" "display")) = 9 /\ ~ call_works functions classes (Call (TMethod "PtraceProcess" "cont") (Exactly 2) []).
Proof.
  repeat (split; [vm_compute; first [reflexivity|tauto]|]). exact cont_two.
Qed.
