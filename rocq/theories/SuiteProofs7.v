(** * SuiteProofs7: programs that the tests run (C137). *)
From Coq Require Import ZArith List Ascii String Bool Lia.
From Verif Require Import PyBase PyFacts Platform IntModel IntSpec RegModel SigModel TabModel TabSpec RegexModel ArgModel ArgSpec ArgProofs3
  DbgModel DbgSpec DbgFinal2 SysModel SysSpec SysProofs3 LogModel StraceModel StraceSpec StraceProofs4 StorySpec CmdModel OutModel OutSpec SuiteModel SuiteSpec.
Import ListNotations.
Open Scope Z_scope.

(** What is at these addresses *)
Definition strings_ex : view :=
  View (fun _ _ => Err (EPtraceError (Some 5))) (fun _ => Err (EPtraceError (Some 5)))
       (fun a _ => match dget Z.eqb a [(100, T "directory"); (200, T "oldpath"); (300, T "newpath"); (400, T "target"); (500, T "linkpath"); (600, T "/home, etc"); (700, T "/tmp/test_strace.py")] with
                   | Some t => Ok (t, false) | None => Err (EPtraceError (Some 5)) end).
Definition call_stop (number : Z) (values : list Z) (result : Z) : stop :=
  Stop (Ok (regs_of (combine (T "orig_rax" :: abi_arguments X86_64) (number :: values ++ repeat 0 (6 - List.length values))))) strings_ex (Ok 0) (Ok result).
(** mmap, openat, chdir, getcwd, rename, link, symlink, socket, exit_group *)
Definition calls_ex : list stop :=
  [call_stop 9 [0; 4096; 3; 34] 0x7f0000000000; call_stop 257 [2 ^ 32 - 100; 700; 0x80000; 0] 3; call_stop 80 [100] (2 ^ 64 - 2); call_stop 79 [600; 1024] 11;
   call_stop 82 [200; 300] (2 ^ 64 - 2); call_stop 86 [200; 300] (2 ^ 64 - 2); call_stop 88 [400; 500] 0; call_stop 41 [2; 0x80001; 0] 4].
Definition exit_ex : stop := call_stop 231 [1] 0.
Definition stops_ex (n _ : nat) : stop := nth ((n - 3) / 4) calls_ex exit_ex.
Definition statuses_ex : list Z := [stop_by 5; 0; 0] ++ flat_map (fun _ => [stop_by 133; 0; stop_by 133; 0]) calls_ex ++ [stop_by 133; 0; encode (Exited 1)].
Definition suite_acts : list act := map (fun s => ACall s s) calls_ex.
Definition suite_end : ending := EndedInside exit_ex exit_ex (Exited 1).
Definition suite_output : text := text_of_lines
  [T "execve(/bin/x, ['/bin/x', 'y'], [/* 40 vars */]) = 100";
   T "mmap(0, 4096, <PROT_READ|PROT_WRITE> (3), 34, 0, 0) = 139637976727552 (0x00007f0000000000)";
   T "openat(AT_FDCWD, '/tmp/test_strace.py', O_RDONLY|O_CLOEXEC (0o2000000)) = 3";
   T "chdir('directory')                       = -2 ENOENT (No such file or directory)";
   T "getcwd('/home, etc', 1024)               = 11 (0x000000000000000b)";
   T "rename('oldpath', 'newpath')             = -2 ENOENT (No such file or directory)";
   T "link('oldpath', 'newpath')               = -2 ENOENT (No such file or directory)";
   T "symlink('target', 'linkpath')            = 0";
   T "socket(AF_INET, SOCK_STREAM|SOCK_CLOEXEC, 0) = 4";
   T "exit_group(1)";
   T "*** Process 100 exited with code 1 ***"].
Ltac call_ex := eapply call_shown with (c3 := SyscallCall _ _ _ _ _);
  [eexists; split; [reflexivity|vm_compute; reflexivity]|split; [left; reflexivity|discriminate]|eexists; split; [reflexivity|vm_compute; reflexivity]|split; reflexivity|vm_compute; reflexivity
  |eexists; split; [vm_compute; reflexivity|]; split; [|reflexivity]; repeat split; reflexivity].
Ltac not_execve_ex := let H1 := fresh in let H2 := fresh in let H3 := fresh in intros (? & (? & H1 & H2) & H3); exfalso; injection H1 as <-; vm_compute in H2; injection H2 as <-; vm_compute in H3; discriminate H3.
Lemma suite_run : strace_run linux_x86_64 no_names repr_ascii ENOENT_only strerror_ex 100 (T "/bin/x") [T "y"] suite_acts suite_end suite_output 1.
Proof.
  eexists (T "log"), (T "x"), _, (fun _ => Err EUndefined), (fun t => T "/bin/" ++ t), (fun _ => []), (fun _ => Ok tt), false, (Ok tt), (Ok []), [], (scripted statuses_ex), stops_ex, (Ok 100), _, _, 30%nat, 8%nat, _, _.
  split; [reflexivity|]. split; [reflexivity|]. split; [discriminate|]. split; [discriminate|]. split; [reflexivity|]. split; [reflexivity|]. split; [reflexivity|].
  split; [eapply begins_program; first [reflexivity | discriminate]|].
  split; [unfold suite_acts, calls_ex, suite_end; cbn [List.length map performs ends]; repeat split; first [reflexivity | discriminate | vm_compute; reflexivity]|].
  split.
  { unfold suite_acts, calls_ex. cbn [map]. do 8 (eapply story_call; [call_ex|not_execve_ex|]). constructor. }
  split.
  { eapply end_shown with (c1 := SyscallCall _ _ _ _ _); [reflexivity|eexists; split; [reflexivity|vm_compute; reflexivity]|split; [left; reflexivity|discriminate]|eexists; split; [reflexivity|vm_compute; reflexivity]|].
    eexists. split; [vm_compute; reflexivity|]. split; [|reflexivity]. repeat split; reflexivity. }
  split; [cbn; lia|]. split; vm_compute; reflexivity.
Qed.
(** A program that is killed by SIGQUIT *)
Definition quit_output : text := text_of_lines [T "execve(/bin/x, ['/bin/x', 'y'], [/* 40 vars */]) = 100"; T "*** Process 100 killed by signal signal<3> ***"].
Lemma quit_run : strace_run linux_x86_64 no_names repr_ascii ENOENT_only strerror_ex 100 (T "/bin/x") [T "y"] [ASignal 3] (Ended (Killed 3 true)) quit_output 131.
Proof.
  eexists (T "log"), (T "x"), _, (fun _ => Err EUndefined), (fun t => T "/bin/" ++ t), (fun _ => []), (fun _ => Ok tt), false, (Ok tt), (Ok []), [],
    (scripted [stop_by 5; 0; 0; stop_by 3; 0; 0; encode (Killed 3 true)]), stops_ex, (Ok 100), _, _, 6%nat, 8%nat, _, _.
  split; [reflexivity|]. split; [reflexivity|]. split; [discriminate|]. split; [discriminate|]. split; [reflexivity|]. split; [reflexivity|]. split; [reflexivity|].
  split; [eapply begins_program; first [reflexivity | discriminate]|].
  split; [cbn [List.length performs ends]; repeat split; first [reflexivity | discriminate | vm_compute; reflexivity]|].
  split; [apply story_signal; constructor|]. split; [constructor|]. split; [cbn; lia|]. split; vm_compute; reflexivity.
Qed.
(** The calls *)
Lemma has_call s number name values : In s calls_ex -> st_regs s = Ok (regs_of (combine (T "orig_rax" :: abi_arguments X86_64) number)) ->
  (exists n, nth_error number 0 = Some n /\ has_number linux_x86_64 n name) -> Forall2 (fun r x => regs_of (combine (T "orig_rax" :: abi_arguments X86_64) number) r = Ok x) (firstn (List.length values) (abi_arguments X86_64)) values ->
  makes linux_x86_64 suite_acts name values s.
Proof.
  intros Hin Hr (n & Hn & Hname) HF. exists s. split; [unfold suite_acts; apply in_map_iff; now exists s|]. exists (regs_of (combine (T "orig_rax" :: abi_arguments X86_64) number)), (T "orig_rax"), n.
  split; [exact Hr|]. split; [reflexivity|]. split; [destruct number as [|y l]; [discriminate Hn|]; injection Hn as ->; reflexivity|]. split; [exact Hname|exact HF].
Qed.
Ltac number_ex := eexists; split; [reflexivity|]; repeat (first [left; reflexivity | right]).
Ltac makes_ex := eapply has_call; [repeat (first [left; reflexivity | right])|reflexivity|eexists; split; [reflexivity|number_ex]|repeat constructor].
Lemma suite_calls :
  (exists b, makes linux_x86_64 suite_acts (T "chdir") [100] b /\ name_at repr_ascii b 100 (T "directory") /\ returns linux_x86_64 b (-2)) /\
  (exists b, makes linux_x86_64 suite_acts (T "rename") [200; 300] b /\ name_at repr_ascii b 200 (T "oldpath") /\ name_at repr_ascii b 300 (T "newpath")) /\
  (exists b, makes linux_x86_64 suite_acts (T "symlink") [400; 500] b /\ name_at repr_ascii b 400 (T "target") /\ name_at repr_ascii b 500 (T "linkpath")) /\
  (exists b, makes linux_x86_64 suite_acts (T "openat") [2 ^ 32 - 100; 700; 0x80000; 0] b /\ name_at repr_ascii b 700 (T "/tmp/" ++ T "test_strace.py")) /\
  (exists b, makes linux_x86_64 suite_acts (T "socket") [2; 1 + 0x80000; 0] b).
Proof.
  split; [exists (call_stop 80 [100] (2 ^ 64 - 2)); split; [makes_ex|split; [repeat split; discriminate|]]|].
  { exists (2 ^ 64 - 2). split; [reflexivity|]. split; [discriminate|]. split; [split; [discriminate|reflexivity]|]. exists 1. reflexivity. }
  split; [exists (call_stop 82 [200; 300] (2 ^ 64 - 2)); split; [makes_ex|repeat split; discriminate]|].
  split; [exists (call_stop 88 [400; 500] 0); split; [makes_ex|repeat split; discriminate]|].
  split; [exists (call_stop 257 [2 ^ 32 - 100; 700; 0x80000; 0] 3); split; [makes_ex|repeat split; discriminate]|].
  exists (call_stop 41 [2; 0x80001; 0] 4). makes_ex.
Qed.
Definition suite_front : list act := map (fun s => ACall s s) (firstn 3 calls_ex).
Lemma suite_getcwd : exists acts2 b before, suite_acts = suite_front ++ ACall b b :: acts2 /\ entered linux_x86_64 b (T "getcwd") [600; 1024] /\ text_at b 600 (T "/home, etc") /\ one_line (repr_ascii (T "/home, etc")) /\
  returns linux_x86_64 b 11 /\ lines_before linux_x86_64 no_names repr_ascii ENOENT_only strerror_ex 100 (T "/bin/x") [T "y"] suite_front before /\
  Forall (fun t => one_line t /\ starts_with (T "getcwd(") t = false) before.
Proof.
  exists (map (fun s => ACall s s) (skipn 4 calls_ex)), (call_stop 79 [600; 1024] 11). eexists. split; [reflexivity|]. split.
  { eexists _, (T "orig_rax"), 79. split; [reflexivity|]. split; [reflexivity|]. split; [reflexivity|]. split; [number_ex|repeat constructor]. }
  split; [split; [discriminate|reflexivity]|]. split; [vm_compute; intuition discriminate|].
  split; [exists 11; split; [reflexivity|]; split; [discriminate|]; split; [split; [discriminate|reflexivity]|exists 0; reflexivity]|].
  split; [eexists; split; [|reflexivity]; unfold suite_front, calls_ex; cbn [map firstn]; do 3 (eapply story_call; [call_ex|not_execve_ex|]); constructor|].
  cbn [flat_map line_texts app]. repeat (constructor; [split; [vm_compute; intuition discriminate|vm_compute; reflexivity]|]). constructor.
Qed.
