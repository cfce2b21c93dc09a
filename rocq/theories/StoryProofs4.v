(** * StoryProofs4: a program with a call, a signal, an execution and an end inside a call (C121). *)
From Coq Require Import ZArith List Ascii String Bool Lia.
From Verif Require Import PyBase PyFacts Platform IntModel RegModel SigModel ToolsModel ArgModel ArgProofs3 DbgModel DbgSpec DbgFinal2
  SysModel SysSpec SysProofs3 StraceModel StraceSpec StraceProofs4 StorySpec StoryProofs3.
Import ListNotations.
Open Scope Z_scope.

Definition acts_ex : list act := [ACall (close_stop 0) (close_stop (-2)); ASignal 10; AExec (execve_stop 0) (execve_stop 0) (execve_stop 0)].
Definition end_ex : ending := EndedInside (close_stop 0) (close_stop 0) (Killed 9 false).
Lemma story_ex : exists l le,
  story linux_x86_64 no_names repr_ascii ENOENT_only strerror_ex plain [] 100 0 acts_ex l /\
  end_lines linux_x86_64 no_names repr_ascii plain [] 100 0 end_ex le /\
  map shown_text (l ++ le) =
    [T "close(7)                                 = -2 ENOENT (No such file or directory)";
     T "execve(NULL, NULL, NULL)                 = 0";
     T "close(7)"; T "*** Process 100 killed by signal signal<9> ***"].
Proof.
  eexists. eexists. split; [|split].
  - eapply story_call.
    + eapply call_shown with (c3 := SyscallCall _ _ _ _ _).
      * eexists. split; [reflexivity|]. vm_compute. reflexivity.
      * split; [now left|discriminate].
      * eexists. split; [reflexivity|]. vm_compute. reflexivity.
      * split; reflexivity.
      * vm_compute. reflexivity.
      * eexists. split; [vm_compute; reflexivity|]. split; [|reflexivity]. repeat split; reflexivity.
    + intros (c & (regs & H1 & H2) & H3). exfalso. injection H1 as <-. vm_compute in H2. injection H2 as <-. vm_compute in H3. discriminate.
    + eapply story_signal. eapply story_exec; [| |reflexivity|constructor].
      * eapply call_shown with (c3 := SyscallCall _ _ _ _ _).
        -- eexists. split; [reflexivity|]. vm_compute. reflexivity.
        -- split; [now left|discriminate].
        -- eexists. split; [reflexivity|]. vm_compute. reflexivity.
        -- split; reflexivity.
        -- vm_compute. reflexivity.
        -- eexists. split; [vm_compute; reflexivity|]. split; [|reflexivity]. repeat split; reflexivity.
      * eexists. split; [eexists; split; [reflexivity|vm_compute; reflexivity]|vm_compute; reflexivity].
  - eapply end_shown with (c1 := SyscallCall _ _ _ _ _); [reflexivity|eexists; split; [reflexivity|vm_compute; reflexivity]|split; [now left|discriminate]|eexists; split; [reflexivity|vm_compute; reflexivity]|].
    eexists. split; [vm_compute; reflexivity|]. split; [|reflexivity]. repeat split; reflexivity.
  - vm_compute. reflexivity.
Qed.
