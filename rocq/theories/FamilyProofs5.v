(** * FamilyProofs5: a program that forks, its child, and their calls one inside the other (C123). *)
From Coq Require Import ZArith List Ascii String Bool Lia.
From Verif Require Import PyBase PyFacts Platform IntModel RegModel SigModel ToolsModel ArgModel ArgProofs3 DbgModel DbgSpec DbgFinal2
  SysModel SysSpec SysProofs3 StraceModel StraceSpec StraceProofs4 StorySpec StoryProofs3 FamilySpec.
Import ListNotations.
Open Scope Z_scope.

Definition steps_ex : list step :=
  [SFork 0 1 1 101; SCall 0 (close_stop 0); SCall 1 (close_stop 0); SCall 0 (close_stop (-2)); SSignal 0 17; SCall 1 (close_stop 0);
   SCall 1 (close_stop 0); SEnd 0 (Exited 3) (close_stop 0); SEnd 1 (Killed 9 false) (close_stop 0)].
Notation tale_ex pid id := (tale linux_x86_64 no_names repr_ascii ENOENT_only strerror_ex forking [] pid id).
Lemma not_execve : call_is linux_x86_64 (close_stop 0) (T "execve") -> s_trace_exec forking = true.
Proof. intros (c & (regs & H1 & H2) & H3). exfalso. injection H1 as <-. vm_compute in H2. injection H2 as <-. vm_compute in H3. discriminate. Qed.
Ltac close_call := eapply call_shown with (c3 := SyscallCall _ _ _ _ _);
  [eexists; split; [reflexivity|vm_compute; reflexivity]|split; [now left|discriminate]|eexists; split; [reflexivity|vm_compute; reflexivity]|split; reflexivity|vm_compute; reflexivity|
   eexists; split; [vm_compute; reflexivity|]; split; [|reflexivity]; repeat split; reflexivity].
Ltac close_entry := eapply entry_shown; [eexists; split; [reflexivity|vm_compute; reflexivity]|split; [now left|discriminate]|eexists; split; [reflexivity|vm_compute; reflexivity]|split; reflexivity].
Lemma tale_parent : exists l, tale_ex 100 0%nat Between
  [(SFork 0 1 1 101, [birth_line 1 101]); (SCall 0 (close_stop 0), []); (SCall 0 (close_stop (-2)), l); (SSignal 0 17, []); (SEnd 0 (Exited 3) (close_stop 0), [end_line no_names 100 (Exited 3)])] /\
  map shown_text l = [T "[100] close(7)                                 = -2 ENOENT (No such file or directory)"].
Proof.
  eexists. split.
  - eapply tale_fork, tale_entry; [close_entry|]. eapply tale_return; [close_call|exact not_execve|]. apply tale_signal, tale_end.
  - vm_compute. reflexivity.
Qed.
Lemma tale_child : exists l l', tale_ex 101 1%nat Between
  [(SCall 1 (close_stop 0), []); (SCall 1 (close_stop 0), l); (SCall 1 (close_stop 0), []); (SEnd 1 (Killed 9 false) (close_stop 0), l')] /\
  map shown_text l = [T "[101] close(7)                                 = 0"] /\ map shown_text l' = [T "[101] close(7)"; T "*** Process 101 killed by signal signal<9> ***"].
Proof.
  eexists. eexists. split; [|split].
  - eapply tale_entry; [close_entry|]. eapply tale_return; [close_call|exact not_execve|]. eapply tale_entry; [close_entry|]. eapply tale_end_inside; [close_entry|].
    eapply end_shown with (c1 := SyscallCall _ _ _ _ _); [reflexivity|eexists; split; [reflexivity|vm_compute; reflexivity]|split; [now left|discriminate]|eexists; split; [reflexivity|vm_compute; reflexivity]|].
    eexists. split; [vm_compute; reflexivity|]. split; [|reflexivity]. repeat split; reflexivity.
  - vm_compute. reflexivity.
  - vm_compute. reflexivity.
Qed.
Lemma family_ex : exists r, map fst r = steps_ex /\
  (forall c, In c ((0%nat, 100) :: children steps_ex) -> tale_ex (snd c) (fst c) Between (part (fst c) r)) /\
  map shown_text (List.concat (map snd r)) =
    [T "*** New process 101 ***";
     T "[100] close(7)                                 = -2 ENOENT (No such file or directory)";
     T "[101] close(7)                                 = 0";
     T "*** Process 100 exited with code 3 ***";
     T "[101] close(7)"; T "*** Process 101 killed by signal signal<9> ***"].
Proof.
  destruct tale_parent as (l & Hp & Tp). destruct tale_child as (l1 & l2 & Hc & Tc1 & Tc2).
  exists [(SFork 0 1 1 101, [birth_line 1 101]); (SCall 0 (close_stop 0), []); (SCall 1 (close_stop 0), []); (SCall 0 (close_stop (-2)), l); (SSignal 0 17, []);
          (SCall 1 (close_stop 0), l1); (SCall 1 (close_stop 0), []); (SEnd 0 (Exited 3) (close_stop 0), [end_line no_names 100 (Exited 3)]); (SEnd 1 (Killed 9 false) (close_stop 0), l2)].
  split; [reflexivity|]. split.
  - intros c [<-|[<-|[]]]; [exact Hp|exact Hc].
  - cbn [map snd List.concat app]. rewrite !map_app. cbn [map]. rewrite !map_app. cbn [map]. rewrite Tp, Tc1, Tc2. vm_compute. reflexivity.
Qed.
Lemma steps_possible : possible 1 [Member 0 100 false] steps_ex.
Proof.
  unfold steps_ex. set (q0 := Member 0 100 false). set (q1 := Member 1 101 false).
  apply (possible_fork 1 [q0] q0 1 101); [now left|now left|discriminate|intros [H|[]]; discriminate|].
  apply (possible_call 2 [q0; q1] q0); [now left|]. apply (possible_call 2 [q0; q1] q1); [now right; left|]. apply (possible_call 2 [q0; q1] q0); [now left|].
  apply (possible_signal 2 [q0; q1] q0); [now left|lia|]. apply (possible_call 2 [q0; q1] q1); [now right; left|]. apply (possible_call 2 [q0; q1] q1); [now right; left|].
  apply (possible_end 2 [q0; q1] q0); [now left|cbn; lia|]. apply (possible_end 2 [q1] q1); [now left|cbn; lia|]. constructor.
Qed.
