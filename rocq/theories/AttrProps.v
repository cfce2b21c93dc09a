(** * AttrProps: C139 — the methods of the classes find the attributes of their object. *)
From Coq Require Import List Bool.
From Verif Require Import AttrNames AttrModel AttrCode AttrSpec AttrCheck AttrProofs AttrContracts AttrProofs2 AttrProofs3.
Import ListNotations.
Open Scope attr_scope.

(** No constructor raises AttributeError on its object, whatever the flags of the platform. *)
Theorem c139_init : forall flags c, In c objects -> init_finds flags classes c.
Proof. exact (fun flags c H => proj1 (all_objects flags c H)). Qed.
Print Assumptions c139_init.
(** After the constructor, methods can be called in any order, and may fail with exceptions: none reads an attribute of the object that is not there. *)
Theorem c139_methods : forall flags c e m, In c objects -> alive flags classes c e -> finds flags classes c e m.
Proof. exact (fun flags c e m H => proj2 (all_objects flags c H) e m). Qed.
Print Assumptions c139_methods.
(** strace.py, gdb.py and examples/itrace.py: the constructor and main() find all attributes of the application. *)
Theorem c139_programs : forall flags c, In c programs -> init_finds flags classes c /\ forall e, created flags classes c e -> finds flags classes c e "main".
Proof. exact all_programs. Qed.
Print Assumptions c139_programs.
(** The destructor of PtraceProcess also runs if the constructor has failed (attaching is not permitted, ...): it finds what it reads. *)
Theorem c139_del : forall flags e, failed flags classes "PtraceProcess" e -> finds flags classes "PtraceProcess" e "__del__".
Proof. exact process_del. Qed.
Print Assumptions c139_del.
(** The attributes and methods that the docstrings list are there as long as the object lives. *)
Theorem c139_documented : forall flags c l a e, In (c, l) documented -> In a l -> alive flags classes c e -> there flags classes c a e = true.
Proof. exact documented_there. Qed.
Print Assumptions c139_documented.
(** But Instruction has no attributes mnemonic and operands, which its docstring lists. *)
Theorem c139_instruction_refuted : exists a, In a instruction_documented /\ forall flags, (exists e, created flags classes "Instruction" e)
  /\ forall e, alive flags classes "Instruction" e -> there flags classes "Instruction" a e = false.
Proof. exact instruction_documentation. Qed.
Print Assumptions c139_instruction_refuted.
(** Every class can be instantiated: the theorems above speak about objects that exist. *)
Theorem c139_created : forall flags c, In c (objects ++ programs) -> exists e, created flags classes c e.
Proof. exact all_created. Qed.
Print Assumptions c139_created.

(** A process of Linux: read_mem_file is there, and used by readBytes(); the constructor can fail in attach(), before read_mem_file is assigned, and then _notRunning()
    (which is not called) would not find it.  An object of Gdb that has not executed main() has no debugger. *)
Example c139_ex :
  (exists e, created linux_flags classes "PtraceProcess" e /\ there linux_flags classes "PtraceProcess" "read_mem_file" e = true
    /\ there linux_flags classes "PtraceProcess" "no_such_name" e = false)
  /\ (exists e, failed linux_flags classes "PtraceProcess" e /\ ~ finds linux_flags classes "PtraceProcess" e "_notRunning")
  /\ (exists e, created linux_flags classes "Gdb" e /\ ~ finds linux_flags classes "Gdb" e "cont").
Proof.
  split; [ | split ].
  - eexists. split.
    + eapply created_init; [ vm_compute; reflexivity | | ].
      * apply (walk_sound linux_known classes "PtraceProcess" linux_flags linux_agrees 3). vm_compute. reflexivity.
      * reflexivity.
    + split; vm_compute; reflexivity.
  - exists (rev process_first). split.
    + eexists. split; [ vm_compute; reflexivity | ].
      do 10 (eapply run_seq; [ apply run_set | ]). apply run_seq_stop; [ | reflexivity ]. apply run_left.
      eapply run_seq; [ apply run_read; vm_compute; reflexivity | ]. apply run_seq_stop; [ | reflexivity ].
      refine (run_call _ _ _ _ _ _ (Raise _) _ _); [ vm_compute; reflexivity | ].
      eapply run_seq; [ apply run_read; vm_compute; reflexivity | ]. eapply run_seq; [ apply run_right; apply run_skip | ].
      eapply run_seq; [ apply run_read; vm_compute; reflexivity | ]. apply run_seq_stop; [ apply run_other_raise | reflexivity ].
    + intros H. eapply (H _ "read_mem_file"); [ vm_compute; reflexivity | ].
      apply (walk_sound linux_known classes "PtraceProcess" linux_flags linux_agrees 3). vm_compute. reflexivity.
  - eexists. split.
    + eapply created_init; [ vm_compute; reflexivity | | ].
      * apply (walk_sound linux_known classes "Gdb" linux_flags linux_agrees 3). vm_compute. reflexivity.
      * reflexivity.
    + intros H. eapply (H _ "debugger"); [ vm_compute; reflexivity | ].
      apply (walk_sound linux_known classes "Gdb" linux_flags linux_agrees 3). vm_compute. reflexivity.
Qed.
