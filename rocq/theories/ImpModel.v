(** * ImpModel: importing Python modules (import statement of Python 3; the modules themselves are in ImpCode.v).
    Simplifications: of the values only the flags that conditions look at are kept; the modules of the standard library are there and have the
    names asked for (AF_NETLINK on Linux only); the C library is found and has ptrace(); the machine has os.uname(); stdout is
    a terminal. *)
From Coq Require Import List Bool PArith.
From Verif Require Import Platform ImpNames.
Import ListNotations.
Open Scope name_scope.

(** Where the program runs: the platform; the optional modules distorm3 and cptrace; the library of pydistorm.py *)
Record host : Type := Host { h_platform : platform; h_distorm3 : bool; h_cptrace : bool; h_libdistorm : bool }.
Definition h_os_is (o : os) (h : host) : bool :=
  match o, p_os (h_platform h) with Linux, Linux | FreeBSD, FreeBSD | OpenBSD, OpenBSD | MacOSX, MacOSX => true | _, _ => false end.
Definition h_cpu_is (c : cpu) (h : host) : bool :=
  match c, p_cpu (h_platform h) with
  | PPC32, PPC32 | PPC64, PPC64 | I386, I386 | X86_64, X86_64 | ARM32, ARM32 | AARCH64, AARCH64 | RISCV32, RISCV32 | RISCV64, RISCV64 => true
  | _, _ => false
  end.
Definition h_64bits (h : host) : bool := p_64bits (h_platform h).

Inductive iexn : Type := ImportError_ | NameError_ | OSError_ | NotImplementedError_ | ValueError_ | Diverges.
Definition iexn_eqb (a b : iexn) : bool :=
  match a, b with
  | ImportError_, ImportError_ | NameError_, NameError_ | OSError_, OSError_ | NotImplementedError_, NotImplementedError_ | ValueError_, ValueError_ => true
  | _, _ => false
  end.
Definition all_exceptions : list iexn := [ImportError_; NameError_; OSError_; NotImplementedError_; ValueError_].

(** Conditions: names, constants, and facts of the host that are found with the given names *)
Inductive bexp : Type := BConst (b : bool) | BName (n : name) | BNot (e : bexp) | BOr (a b : bexp) | BHost (uses : list name) (f : host -> bool).
Inductive istmt : Type :=
| SImport (module bound : name)                        (* import module [as bound] *)
| SFrom (module : name) (names : list (name * name)) (* from module import name as bound, ... *)
| SBind (names uses : list name)                       (* definitions: names defined, names read *)
| SSet (n : name) (e : bexp)                        (* name = e *)
| SIf (e : bexp) (yes no : list istmt)
| STry (body : list istmt) (caught : list iexn) (handler : list istmt)
| SRaise (e : iexn)
| SDel (names : list name).
Definition same (n : name) : name * name := (n, n).

(** A file: the name of the module, its package, its name in the package, its statements *)
Record file : Type := File { f_name : name; f_package : option name; f_short : name; f_body : list istmt }.

(** ** Namespaces *)
Inductive value : Type := VBool (b : bool) | VAny.
Definition ns : Type := list (name * value).
Fixpoint look {A} (n : name) (l : list (name * A)) : option A := match l with [] => None | (k, v) :: l => if Pos.eqb n k then Some v else look n l end.
Fixpoint put {A} (n : name) (v : A) (l : list (name * A)) : list (name * A) :=
  match l with [] => [(n, v)] | (k, w) :: l => if Pos.eqb n k then (k, v) :: l else (k, w) :: put n v l end.
Fixpoint drop {A} (n : name) (l : list (name * A)) : list (name * A) := match l with [] => [] | (k, v) :: l => if Pos.eqb n k then drop n l else (k, v) :: drop n l end.
Definition has {A} (n : name) (l : list (name * A)) : bool := match look n l with Some _ => true | None => false end.

Inductive ires (A : Type) : Type := IOk (a : A) | IErr (e : iexn).
Arguments IOk {A} a. Arguments IErr {A} e.
Fixpoint beval (h : host) (e : bexp) (l : ns) : ires bool :=
  match e with
  | BConst b => IOk b
  | BName n => match look n l with Some (VBool b) => IOk b | Some VAny => IOk true | None => IErr NameError_ end
  | BNot e => match beval h e l with IOk b => IOk (negb b) | r => r end
  | BOr a b => match beval h a l with IOk true => IOk true | IOk false => beval h b l | r => r end
  | BHost uses f => if forallb (fun n => has n l) uses then IOk (f h) else IErr NameError_
  end.

(** sys.modules *)
Definition modules : Type := list (name * ns).
Definition names_of (x : name) (st : modules) : ns := match look x st with Some l => l | None => [] end.
(** New names hide the old ones. *)
Definition bind_in (x : name) (new : ns) (st : modules) : modules := put x (rev_append new (names_of x st)) st.

(** Modules that are not files of the project: those of the standard library, and distorm3 and cptrace, which may be missing *)
Definition standard : list name :=
  ["ctypes"; "ctypes.util"; "datetime"; "errno"; "fcntl"; "io"; "logging"; "optparse"; "os"; "os.path"; "pickle"; "platform"; "profile"; "pstats"; "re"; "readline"; "resource"; "signal"; "socket"; "struct"; "sys"; "termios"; "time"; "traceback"; "weakref"].
Definition outside (h : host) (m n : name) : bool :=
  if Pos.eqb m "distorm3" then h_distorm3 h
  else if Pos.eqb m "cptrace" then h_cptrace h
  else if Pos.eqb n "AF_NETLINK" then h_os_is Linux h
  else existsb (Pos.eqb m) standard.

Section Import.
  Context (h : host) (code : list file).
  Fixpoint find_file (m : name) (l : list file) : option file := match l with [] => None | f :: l => if Pos.eqb m (f_name f) then Some f else find_file m l end.
  Definition ours (m : name) : bool := match find_file m code with Some _ => true | None => false end.
  (** The file of a submodule *)
  Fixpoint submodule (m n : name) (l : list file) : option name :=
    match l with
    | [] => None
    | f :: l => if match f_package f with Some p => Pos.eqb p m && Pos.eqb (f_short f) n | None => false end then Some (f_name f) else submodule m n l
    end.

  (** The statements of the module [x].  [imp]: importing a module of the project. *)
  Section Exec.
    Context (imp : name -> modules -> modules * ires unit) (x : name).
    (** The names that are bound (the latest first); a name that is not there may be a submodule *)
    Fixpoint from_names (m : name) (names : list (name * name)) (st : modules) (got : ns) : modules * ns * ires unit :=
      match names with
      | [] => (st, got, IOk tt)
      | (n, bound) :: names =>
          match look n (names_of m st) with
          | Some v => from_names m names st ((bound, v) :: got)
          | None =>
              match submodule m n code with
              | None => (st, got, IErr ImportError_)
              | Some s => match imp s st with (st, IOk _) => from_names m names st ((bound, VAny) :: got) | (st, IErr e) => (st, got, IErr e) end
              end
          end
      end.
    Definition any (names : list name) : ns := map (fun n => (n, VAny)) names.
    Definition defined (names : list name) (st : modules) : bool := forallb (fun n => has n (names_of x st)) names.
    Fixpoint exec (s : istmt) (st : modules) : modules * ires unit :=
      let fix exec_list (l : list istmt) (st : modules) : modules * ires unit :=
        match l with
        | [] => (st, IOk tt)
        | s :: l => match exec s st with (st, IOk _) => exec_list l st | r => r end
        end in
      match s with
      | SImport m bound =>
          if ours m then match imp m st with (st, IOk _) => (bind_in x (any [bound]) st, IOk tt) | r => r end
          else if outside h m m then (bind_in x (any [bound]) st, IOk tt) else (st, IErr ImportError_)
      | SFrom m names =>
          if ours m then
            match imp m st with
            | (st, IOk _) => let '(st, got, r) := from_names m names st [] in (bind_in x (rev got) st, r)
            | r => r
            end
          else if forallb (fun n => outside h m (fst n)) names then (bind_in x (any (map snd names)) st, IOk tt)
          else (st, IErr ImportError_)
      | SBind names uses => if defined uses st then (bind_in x (any names) st, IOk tt) else (st, IErr NameError_)
      | SSet n e => match beval h e (names_of x st) with IOk b => (bind_in x [(n, VBool b)] st, IOk tt) | IErr e => (st, IErr e) end
      | SIf e yes no => match beval h e (names_of x st) with IOk true => exec_list yes st | IOk false => exec_list no st | IErr e => (st, IErr e) end
      | STry body caught handler =>
          match exec_list body st with
          | (st, IErr e) => if existsb (iexn_eqb e) caught then exec_list handler st else (st, IErr e)
          | r => r
          end
      | SRaise e => (st, IErr e)
      | SDel names => if defined names st then (put x (fold_left (fun l n => drop n l) names (names_of x st)) st, IOk tt) else (st, IErr NameError_)
      end.
    Fixpoint exec_list (l : list istmt) (st : modules) : modules * ires unit :=
      match l with
      | [] => (st, IOk tt)
      | s :: l => match exec s st with (st, IOk _) => exec_list l st | r => r end
      end.
  End Exec.

  (** A module that is there (even if it is still being executed) is not executed again.  Its package is imported first.  The module is in
      sys.modules while it is executed and is removed if this fails; afterwards it is an attribute of its package. *)
  Fixpoint import_module (fuel : nat) (m : name) (st : modules) : modules * ires unit :=
    match fuel with
    | O => (st, IErr Diverges)
    | S fuel =>
        if has m st then (st, IOk tt)
        else
          match find_file m code with
          | None => (st, IErr ImportError_)
          | Some f =>
              match (match f_package f with None => (st, IOk tt) | Some p => import_module fuel p st end) with
              | (st, IErr e) => (st, IErr e)
              | (st, IOk _) =>
                  if has m st then (st, IOk tt)
                  else
                    match exec_list (import_module fuel) m (f_body f) (put m [] st) with
                    | (st, IErr e) => (drop m st, IErr e)
                    | (st, IOk _) => (match f_package f with Some p => if has p st then bind_in p [(f_short f, VAny)] st else st | None => st end, IOk tt)
                    end
              end
          end
    end.
  (** The imports of a program, one after the other: how they end *)
  Fixpoint import_all (fuel : nat) (l : list name) (st : modules) : modules * list (ires unit) :=
    match l with
    | [] => (st, [])
    | m :: l => let (st, r) := import_module fuel m st in let (st, rs) := import_all fuel l st in (st, r :: rs)
    end.
End Import.

(** setup.py 40, 42: MODULES, SCRIPTS (without the ending ".py"); MANIFEST.in 17-18: the examples *)
Definition setup_modules : list name := ["ptrace"; "ptrace.binding"; "ptrace.syscall"; "ptrace.syscall.linux"; "ptrace.debugger"].
Definition setup_scripts : list name := ["strace"; "gdb"].
Definition setup_examples : list name := ["itrace"; "simple_dbg"].
