(** * PeerProps: C141 — code finds the attributes it reads in objects of other classes, and in the options of the command line. *)
From Coq Require Import List Bool PArith String.
From Verif Require Import PyBase AttrNames AttrModel AttrCode AttrSpec AttrCheck AttrProofs AttrContracts AttrProofs2 AttrProofs3 PeerModel PeerCode PeerSpec PeerProofs.
Import ListNotations.
Open Scope attr_scope.

(** x.a, where x is an object of the class c or of one derived from it: the attribute is there, whatever methods of x have been called, and whatever the flags of the platform. *)
Theorem c141_peers : forall flags c a d e, In (c, a) peers -> In d objects -> is_a d c -> alive flags classes d e -> there flags classes d a e = true.
Proof. exact peers_there. Qed.
Print Assumptions c141_peers.
(** The classes of the variables are classes of the library. *)
Theorem c141_classes : forall c a, In (c, a) peers -> In c objects /\ is_a c c.
Proof. exact peers_known. Qed.
Print Assumptions c141_classes.
(** The function of an argument is a system call, or a FunctionCall to which setupSocketCall() has given a process. *)
Theorem c141_function : forall flags a e, In a function_reads ->
  (alive flags classes "PtraceSyscall" e -> there flags classes "PtraceSyscall" a e = true)
  /\ (alive flags classes "FunctionCall" e -> there flags classes "FunctionCall" a ("process" :: e) = true).
Proof. exact function_there. Qed.
Print Assumptions c141_function.
(** self.options.x in a method of an application: each of its programs has an option x. *)
Theorem c141_options : forall p c l o, In p programs -> In (c, l) option_reads -> is_a p c -> In o l -> In o (values (options_of p)).
Proof. exact options_there. Qed.
Print Assumptions c141_options.
(** No option is ignored: a method of the program reads it. *)
Theorem c141_read : forall p o, In p programs -> In o (values (options_of p)) -> exists c l, In (c, l) option_reads /\ is_a p c /\ In o l.
Proof. exact options_used. Qed.
Print Assumptions c141_read.
(** Two options never share an attribute. *)
Theorem c141_distinct : forall p, In p programs -> NoDup (values (options_of p)).
Proof. exact names_differ. Qed.
Print Assumptions c141_distinct.
(** runtests.py reads all of its options, and no others. *)
Theorem c141_runtests : forall o, In o runtests_reads <-> In o (values runtests_options).
Proof. exact runtests_both. Qed.
Print Assumptions c141_runtests.

(** gdb.py 742 reads the name of a signal event, which other events do not have; a FunctionCall has no process before setupSocketCall(); gdb has no option --enter. *)
Example c141_ex :
  In ("ProcessSignal", "name") peers /\ is_a "ProcessSignal" "ProcessEvent"
  /\ (exists e, created linux_flags classes "ProcessSignal" e /\ there linux_flags classes "ProcessSignal" "name" e = true)
  /\ (exists e, created linux_flags classes "ProcessExit" e /\ there linux_flags classes "ProcessExit" "name" e = false)
  /\ (exists e, created linux_flags classes "FunctionCall" e /\ In "process" function_reads /\ there linux_flags classes "FunctionCall" "process" e = false)
  /\ values (options_of "Gdb") = [T "pid"; T "fork"; T "trace_exec"; T "trace_clone"; T "no_stdout"; T "quiet"; T "verbose"; T "debug"]
  /\ is_a "Tracer" "SyscallTracer" /\ ~ is_a "Gdb" "SyscallTracer".
Proof.
  split; [ | split; [ | split; [ | split; [ | split; [ | split; [ | split ] ] ] ] ] ].
  - assert (Q : existsb (fun x => Pos.eqb (fst x) "ProcessSignal" && Pos.eqb (snd x) "name") peers = true) by (vm_compute; reflexivity).
    apply existsb_exists in Q as ((c & a) & H & E). cbn [fst snd] in E. apply andb_true_iff in E as [E1 E2]. apply Pos.eqb_eq in E1, E2. subst. exact H.
  - apply is_ab_spec. vm_compute. reflexivity.
  - eexists. split; [ eapply created_init; [ vm_compute; reflexivity | apply (walk_sound linux_known classes "ProcessSignal" linux_flags linux_agrees 3); vm_compute; reflexivity | reflexivity ] | vm_compute; reflexivity ].
  - eexists. split; [ eapply created_init; [ vm_compute; reflexivity | apply (walk_sound linux_known classes "ProcessExit" linux_flags linux_agrees 3); vm_compute; reflexivity | reflexivity ] | vm_compute; reflexivity ].
  - eexists. split; [ eapply created_init; [ vm_compute; reflexivity | apply (walk_sound linux_known classes "FunctionCall" linux_flags linux_agrees 3); vm_compute; reflexivity | reflexivity ] | ].
    split; [ apply mem_In; vm_compute; reflexivity | vm_compute; reflexivity ].
  - vm_compute. reflexivity.
  - apply is_ab_spec. vm_compute. reflexivity.
  - rewrite is_ab_spec. vm_compute. discriminate.
Qed.
