(** * SuiteSpec: what the traced program has to do for the tests of strace.py (C137). *)
From Coq Require Import ZArith List Ascii String Bool.
From Verif Require Import PyBase Platform IntModel IntSpec RegModel SigModel TabModel TabSpec ToolsModel ArgModel DbgModel DbgSpec SysModel SysSpec LogModel StraceModel StraceSpec StorySpec CmdModel OutModel OutSpec SuiteModel.
Import ListNotations.
Open Scope Z_scope.

(** strace.py without options but --output (see C102) *)
Definition test_options (program : list text) : soptions := SOptions None program false false false 300 20 false None false None false false false false false false false.
(** A line of [output] begins with [t]. *)
Definition has_line (output t : text) : Prop := exists before after, output = before ++ t ++ after /\ (before = [] \/ exists b, before = b ++ [z2b 10]).

(** There is no end of a line in the text. *)
Definition one_line (t : text) : Prop := ~ In (z2b 10) t.

(** What os.rename(), os.link() and os.symlink() call: the newer architectures do not have the old calls.  [d1], [d2]: AT_FDCWD *)
Definition rename_call (c : cpu) (d1 old d2 new : Z) : text * list Z :=
  match c with
  | AARCH64 => (T "renameat", [d1; old; d2; new])
  | RISCV32 | RISCV64 => (T "renameat2", [d1; old; d2; new; 0])
  | _ => (T "rename", [old; new])
  end.
Definition link_call (c : cpu) (d1 old d2 new flags : Z) : text * list Z :=
  match c with
  | AARCH64 | RISCV32 | RISCV64 => (T "linkat", [d1; old; d2; new; flags])
  | _ => (T "link", [old; new])
  end.
Definition symlink_call (c : cpu) (old d new : Z) : text * list Z :=
  match c with
  | AARCH64 | RISCV32 | RISCV64 => (T "symlinkat", [old; d; new])
  | _ => (T "symlink", [old; new])
  end.

Section Suite.
  Context (p : platform) (ns : namespace) (repr_fs : list byte -> text) (errorcode : list (Z * text)) (strerror : Z -> text).

  (** strace.py is started on Linux as the tests start it, with the program [x] (its path) and the arguments [l], and traces the process [pid]; the program does
      [acts] and ends with [e] (see C121), and leaves [output] in the file and the status [status] (see C134).  The kernel and the file system may answer in any
      way that makes this happen. *)
  Definition strace_run (pid : Z) (x : text) (l : list text) (acts : list act) (e : ending) (output : text) (status : Z) : Prop :=
    exists temp name names compile locate show open_w profile dump stats files K stops child first asked rounds fuel lines last_lines,
      running_linux p = true /\ SYSCALL_NAMES p = Ok names /\ pid <> 0 /\
      temp <> [] /\ open_w temp = Ok tt /\ locate name = x /\ child = Ok pid /\
      begins (test_options (x :: l)) child K pid first asked /\ performs K stops pid 0 (List.length asked) acts (ends K stops pid 0 e) /\
      story p ns repr_fs errorcode strerror (test_options (x :: l)) [] pid 0 acts lines /\ end_lines p ns repr_fs (test_options (x :: l)) [] pid 0 e last_lines /\
      (3 * List.length acts + 3 <= rounds)%nat /\
      let u := strace_program p compile locate (fun o only => strace_main p ns repr_fs errorcode strerror K stops o only child rounds (S (S fuel)) (start p))
                 show open_w profile dump stats (test_args temp (name :: l)) files in
      content (u_files u) temp = Some output /\ u_status u = status.

  (** The call [name] with these arguments begins at [a]. *)
  Definition entered (a : stop) (name : text) (values : list Z) : Prop :=
    exists regs r number, st_regs a = Ok regs /\ abi_number (p_cpu p) = Some r /\ regs r = Ok number /\ has_number p number name /\
      Forall2 (fun r x => regs r = Ok x) (firstn (List.length values) (abi_arguments (p_cpu p))) values.
  (** The program calls [name] with these arguments, and it returns at [b]. *)
  Definition makes (acts : list act) (name : text) (values : list Z) (b : stop) : Prop := exists a, In (ACall a b) acts /\ entered a name values.
  (** The text [t] is at this address (at most 300 bytes) ... *)
  Definition text_at (b : stop) (address : Z) (t : text) : Prop := address <> 0 /\ v_cstring (st_view b) address 300 = Ok (t, false).
  (** ... and Python quotes it as it is. *)
  Definition name_at (b : stop) (address : Z) (t : text) : Prop := text_at b address t /\ repr_fs t = T "'" ++ t ++ T "'".
  (** The call returns [n]. *)
  Definition returns (b : stop) (n : Z) : Prop := exists r, st_result b = Ok r /\ 0 <= r /\ signed_of (8 * word_size p) r n.
  (** The lines of the output before those of what comes after [acts] *)
  Definition lines_before (pid : Z) (x : text) (l : list text) (acts : list act) (lines : list text) : Prop :=
    exists ls, story p ns repr_fs errorcode strerror (test_options (x :: l)) [] pid 0 acts ls /\
      lines = execve_line x (x :: l) pid :: flat_map (line_texts (fun _ => [])) ls.
End Suite.
