(** * ChildModel: the creation of the traced program (ptrace/debugger/child.py).
    The parent and the child are modelled separately from fork() on; they share the pipe for errors. *)
From Coq Require Import ZArith List Ascii String Bool.
From Verif Require Import PyBase Platform TraceModel.
Import ListNotations.
Open Scope Z_scope.

(** An exception with its message: str(err) *)
Record pyexn : Type := PyExn { px_exn : exn; px_msg : text }.
(** "except Exception": not the interruption nor exit() *)
Definition is_exception (e : exn) : bool := match e with EKeyboardInterrupt | ESystemExit _ => false | _ => true end.
Definition is_oserror (e : exn) : bool := match e with EOSError _ => true | _ => false end.
Definition EINTR : Z := 4.
Definition EBADF : Z := 9.

(** File descriptors: the flags of the open ones, bit 0 (FD_CLOEXEC): closed by execve(); and what is open *)
Inductive file : Type := FNull | FPipe (write_end : bool) | FFile (n : Z).
Record desc : Type := Desc { d_flags : Z; d_file : file }.
Definition fdtable : Type := Z -> option desc.
Definition fd_set (t : fdtable) (fd : Z) (d : option desc) : fdtable := fun x => if x =? fd then d else t x.
(** execve() closes the descriptors with the flag *)
Definition after_exec (t : fdtable) : fdtable := fun x => match t x with Some d => if Z.testbit (d_flags d) 0 then None else Some d | None => None end.

(** The system calls, in order *)
Inductive ccall : Type :=
| CPipe | CSetCloexec (fd : Z) | CFork | CTraceMe | CInheritable (fd : Z) | CClose (fd : Z) | COpenNull | CDup2 (fd fd2 : Z)
| CExec (arguments : list text) (env : option (list (text * text))) | CWrite (fd : Z) (data : list byte) | CRead (fd size : Z) | CWaitpid (pid options : Z).
(** How code ends.  [Execed]: the process image is replaced, nothing more of the library runs in that process. *)
Inductive outcome (A : Type) : Type := Ret (a : A) | Raise (x : pyexn) | Execed (arguments : list text) (env : option (list (text * text))).
Arguments Ret {A} _. Arguments Raise {A} _. Arguments Execed {A} _ _.
(** The state of one process: its descriptors, the calls so far (last first), what has been written in the pipe *)
Record cstate : Type := CState { c_fds : fdtable; c_calls : list ccall; c_pipe : list byte }.
Definition CM (A : Type) : Type := cstate -> cstate * outcome A.
Definition cret {A} (a : A) : CM A := fun st => (st, Ret a).
Definition craise {A} (x : pyexn) : CM A := fun st => (st, Raise x).
Definition cbind {A B} (m : CM A) (f : A -> CM B) : CM B := fun st =>
  match m st with
  | (st, Ret a) => f a st
  | (st, Raise x) => (st, Raise x)
  | (st, Execed a e) => (st, Execed a e)
  end.
Notation "x <: m ; f" := (cbind m (fun x => f)) (at level 60, m at next level, right associativity).
(** try: m except: the handler gets the exception *)
Definition ctry {A} (m : CM A) (handler : pyexn -> CM A) : CM A := fun st =>
  match m st with
  | (st, Raise x) => handler x st
  | r => r
  end.
Fixpoint cforeach {A} (l : list A) (f : A -> CM unit) : CM unit :=
  match l with
  | [] => cret tt
  | x :: l => _ <: f x; cforeach l f
  end.
Definition did (c : ccall) : CM unit := fun st => (CState (c_fds st) (c :: c_calls st) (c_pipe st), Ret tt).
Definition upd (f : fdtable -> fdtable) : CM unit := fun st => (CState (f (c_fds st)) (c_calls st) (c_pipe st), Ret tt).
Definition desc_of (fd : Z) : CM (option desc) := fun st => (st, Ret (c_fds st fd)).
Definition oserror (errno : Z) : pyexn := PyExn (EOSError errno) [].

(** What the kernel and the Python library answer.  [co_close]: an error of close(), that has closed the descriptor all the
    same (close(2), Linux); [co_null]: the descriptor of open("/dev/null"); [co_dumps], [co_loads]: the pickle module;
    [co_write], [co_read], [co_waitpid]: the answers to the successive attempts. *)
Record cos : Type := COs {
  co_traceme : option pyexn;
  co_close : Z -> option Z;
  co_null : Z + pyexn;
  co_dup2 : Z -> Z -> option pyexn;
  co_exec : list text -> option (list (text * text)) -> option pyexn;
  co_write : list (option Z);
  co_read : list (list byte + Z);
  co_waitpid : list (option Z);
  co_dumps : pyexn -> list byte + pyexn;
  co_loads : list byte -> pyexn
}.

Section Child.
  Context (os : cos) (MAXFD : Z).

  (** os.close *)
  Definition close (fd : Z) : CM unit :=
    _ <: did (CClose fd);
    d <: desc_of fd;
    match d with
    | None => craise (oserror EBADF)
    | Some _ =>
        _ <: upd (fun t => fd_set t fd None);
        match co_close os fd with
        | Some errno => craise (oserror errno)
        | None => cret tt
        end
    end.
  (** os.set_inheritable(fd, True) *)
  Definition set_inheritable (fd : Z) : CM unit :=
    _ <: did (CInheritable fd);
    d <: desc_of fd;
    match d with
    | None => craise (oserror EBADF)
    | Some d => upd (fun t => fd_set t fd (Some (Desc (Z.land (d_flags d) (Z.lnot 1)) (d_file d))))
    end.
  (** os.dup2(fd, fd2): the copy is inheritable; nothing is changed when the two are the same *)
  Definition dup2 (fd fd2 : Z) : CM unit :=
    _ <: did (CDup2 fd fd2);
    match co_dup2 os fd fd2 with
    | Some x => craise x
    | None =>
        d <: desc_of fd;
        match d with
        | None => craise (oserror EBADF)
        | Some d => if fd =? fd2 then cret tt else upd (fun t => fd_set t fd2 (Some (Desc 0 (d_file d))))
        end
    end.
  (** 31-38 *)
  Definition set_cloexec_flag (fd : Z) : CM unit :=
    _ <: did (CSetCloexec fd);
    d <: desc_of fd;
    match d with
    | None => craise (oserror EBADF)
    | Some old => upd (fun t => fd_set t fd (Some (Desc (Z.lor (d_flags old) 1) (d_file old))))
    end.
  (** 41-50, 53-62, 65-74: the answers of the attempts; a list that ends is a call that never returns *)
  Fixpoint waitpid_no_intr (pid options : Z) (answers : list (option Z)) : CM unit :=
    match answers with
    | [] => _ <: did (CWaitpid pid options); craise (PyExn EDiverges [])
    | None :: _ => did (CWaitpid pid options)
    | Some e :: answers => _ <: did (CWaitpid pid options); if e =? EINTR then waitpid_no_intr pid options answers else craise (oserror e)
    end.
  Fixpoint read_no_intr (fd size : Z) (answers : list (list byte + Z)) : CM (list byte) :=
    match answers with
    | [] => _ <: did (CRead fd size); craise (PyExn EDiverges [])
    | inl data :: _ => _ <: did (CRead fd size); cret data
    | inr e :: answers => _ <: did (CRead fd size); if e =? EINTR then read_no_intr fd size answers else craise (oserror e)
    end.
  (** A successful write() of the error to the pipe writes everything (a blocking pipe). *)
  Fixpoint write_no_intr (fd : Z) (data : list byte) (answers : list (option Z)) : CM unit :=
    match answers with
    | [] => _ <: did (CWrite fd data); craise (PyExn EDiverges [])
    | None :: _ => fun st => (CState (c_fds st) (CWrite fd data :: c_calls st) (c_pipe st ++ data), Ret tt)
    | Some e :: answers => _ <: did (CWrite fd data); if e =? EINTR then write_no_intr fd data answers else craise (oserror e)
    end.
  (** 77-84 *)
  Definition createParent (pid errpipe_read : Z) : CM unit :=
    data <: read_no_intr errpipe_read 1048576 (co_read os);
    _ <: close errpipe_read;
    match data with
    | [] => cret tt
    | _ => _ <: waitpid_no_intr pid 0 (co_waitpid os); craise (co_loads os data)
    end.
  (** 124-132.  null.close() is a close of the descriptor. *)
  Definition redirect_output : CM unit :=
    ctry (_ <: did COpenNull;
          match co_null os with
          | inr x => craise x
          | inl null =>
              _ <: upd (fun t => fd_set t null (Some (Desc 1 FNull)));
              _ <: dup2 null 1;
              _ <: dup2 1 2;
              close null
          end)
         (fun x => if is_oserror (px_exn x) then (_ <: close 2; close 1) else craise x).
  (** 123-139: arguments[0] raises IndexError when there is no argument *)
  Definition execChild (arguments : list text) (no_stdout : bool) (env : option (list (text * text))) : CM unit :=
    _ <: (if no_stdout then redirect_output else cret tt);
    ctry (match arguments with
          | [] => craise (PyExn EIndexError (T "list index out of range"))
          | _ => _ <: did (CExec arguments env);
                 match co_exec os arguments env with
                 | Some x => craise x
                 | None => fun st => (CState (after_exec (c_fds st)) (c_calls st) (c_pipe st), Execed arguments env)
                 end
          end)
         (fun x => if is_exception (px_exn x) then craise (PyExn EChildError (px_msg x)) else craise x).
  (** 102-110 *)
  Definition close_others (errpipe_write : Z) (pass_fds : list Z) : CM unit :=
    cforeach (map (Z.add 3) (zrange (Z.to_nat (MAXFD - 3))))
      (fun fd => if (fd =? errpipe_write) || existsb (Z.eqb fd) pass_fds then cret tt
                 else ctry (close fd) (fun x => if is_oserror (px_exn x) then cret tt else craise x)).
  (** 94-97; ptrace_traceme() raises PtraceError *)
  Definition traceme : CM unit :=
    ctry (_ <: did CTraceMe;
          match co_traceme os with Some x => craise x | None => cret tt end)
         (fun x => if is_ptrace_error (px_exn x) then craise (PyExn EChildError (px_msg x)) else craise x).
  (** 87-120.  The text of the traceback added to the exception (117-118) is not represented.  exit() raises SystemExit. *)
  Definition createChild_child (arguments : list text) (no_stdout : bool) (env : option (list (text * text))) (errpipe_write : Z) (close_fds : bool) (pass_fds : list Z) : CM unit :=
    _ <: traceme;
    _ <: cforeach pass_fds set_inheritable;
    _ <: (if close_fds then close_others errpipe_write pass_fds else cret tt);
    _ <: ctry (execChild arguments no_stdout env)
              (fun x => match co_dumps os x with
                        | inr y => craise y
                        | inl data => write_no_intr errpipe_write data (co_write os)
                        end);
    craise (PyExn (ESystemExit 255) (T "255")).
  (** 154-174, for one of the two processes.  [pipe]: the descriptors of pipe(), closed on exec (os.pipe); [pid]: the answer
      of fork() *)
  Definition createChild (pipe : Z * Z + pyexn) (fork : Z + pyexn) (arguments : list text) (no_stdout : bool) (env : option (list (text * text))) (close_fds : bool) (pass_fds : list Z) : CM Z :=
    let close_fds := if negb (match pass_fds with [] => true | _ => false end) && negb close_fds then true else close_fds in
    _ <: did CPipe;
    match pipe with
    | inr x => craise x
    | inl (errpipe_read, errpipe_write) =>
        _ <: upd (fun t => fd_set (fd_set t errpipe_read (Some (Desc 1 (FPipe false)))) errpipe_write (Some (Desc 1 (FPipe true))));
        _ <: set_cloexec_flag errpipe_write;
        _ <: did CFork;
        match fork with
        | inr x => craise x
        | inl pid =>
            if negb (pid =? 0) then
              (_ <: close errpipe_write;
               _ <: createParent pid errpipe_read;
               cret pid)
            else
              (_ <: close errpipe_read;
               _ <: createChild_child arguments no_stdout env errpipe_write close_fds pass_fds;
               cret 0)     (* the end of the function; not reached: the child raises or is replaced *)
        end
    end.
End Child.
