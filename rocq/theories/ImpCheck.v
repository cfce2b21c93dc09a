(** * ImpCheck: a check of the modules, one by one (used in the proofs only).
    For a host: a table of the names that every module has in the end, and how its import ends.  Each module is executed alone against this table. *)
From Coq Require Import List Bool PArith.
From Verif Require Import Platform ImpNames ImpModel ImpCode.
Import ListNotations.
Open Scope name_scope.

Definition mem (n : name) (l : list name) : bool := existsb (Pos.eqb n) l.
Definition package_of (m : name) : option name := match find_file m code with Some f => f_package f | None => None end.
(** A module or one of its packages *)
Fixpoint anc (k : nat) (w m : name) : bool :=
  Pos.eqb m w || match k with O => false | S k => match package_of w with Some p => anc k p m | None => false end end.
Fixpoint depth (k : nat) (m : name) : nat := match k with O => O | S k => match package_of m with Some p => S (depth k p) | None => O end end.

(** ** What a module may import while another one is being executed *)
Fixpoint imports_of (s : istmt) : list (name * list name) :=
  match s with
  | SImport m _ => [(m, [])]
  | SFrom m names => [(m, map fst names)]
  | SIf _ a b | STry a _ b => flat_map imports_of a ++ flat_map imports_of b
  | _ => []
  end.
Definition needs_of (m : name) : list (name * list name) :=
  match find_file m code with
  | Some f => filter (fun p => ours code (fst p)) (flat_map imports_of (f_body f))
  | None => []
  end.
Definition needs_table : list (name * list (name * list name)) := Eval vm_compute in map (fun f => (f_name f, needs_of (f_name f))) code.
Definition needs (m : name) : list (name * list name) := match look m needs_table with Some l => l | None => [] end.
Definition deps (m : name) : list name := match package_of m with Some p => [p] | None => [] end ++ map fst (needs m).
Fixpoint close (k : nat) (avoid : name -> bool) (todo done : list name) : list name :=
  match k, todo with
  | O, _ | _, [] => done
  | S k, t :: todo => if avoid t || mem t done then close k avoid todo done else close k avoid (deps t ++ todo) (t :: done)
  end.
Definition nt_row (z : name) : list (name * list name) :=
  let avoid := anc 4 z in
  let reach t := close 2000 avoid [t] [] in
  map (fun t => (t, flat_map (fun y => flat_map (fun p => if Pos.eqb (fst p) z then snd p else []) (needs y)) (reach t))) (close 2000 avoid (map fst (needs z)) []).
Definition nt_table : list (name * list (name * list name)) := Eval vm_compute in map (fun f => (f_name f, nt_row (f_name f))) code.
(** The names of [w] that must be there when [t] is imported while [w] is being executed *)
Definition nt (w t : name) : option (list name) := match look w nt_table with Some row => look t row | None => None end.

Definition subs_table : list (name * list name) :=
  Eval vm_compute in map (fun f => (f_name f, map f_short (filter (fun g => match f_package g with Some p => Pos.eqb p (f_name f) | None => false end) code))) code.
Definition subs (m : name) : list name := match look m subs_table with Some l => l | None => [] end.

(** ** What is checked once *)
Definition incl_b (a b : list name) : bool := forallb (fun n => mem n b) a.
Definition closed (z m : name) : bool :=
  forallb (fun r => let w := fst r in
             match nt w z with None => true | Some a => anc 4 w m || match nt w m with Some b => incl_b b a | None => false end end) nt_table.
Fixpoint reads (e : bexp) : list name :=
  match e with BConst _ => [] | BName n => [n] | BNot e => reads e | BOr a b => reads a ++ reads b | BHost uses _ => uses end.
Definition free (z : name) (l : list name) : bool := forallb (fun n => negb (mem n (subs z))) l.
Fixpoint stmt_ok (z : name) (s : istmt) : bool :=
  match s with
  | SImport m _ => if ours code m then closed z m else true
  | SFrom m names =>
      if ours code m then
        negb (Pos.eqb m z) && closed z m && free m (map fst names)
        && match nt m z with Some a => incl_b (map fst names) a | None => true end
      else true
  | SBind _ uses => free z uses
  | SSet _ e => free z (reads e)
  | SIf e a b => free z (reads e) && forallb (stmt_ok z) a && forallb (stmt_ok z) b
  | STry a _ b => forallb (stmt_ok z) a && forallb (stmt_ok z) b
  | SRaise _ => true
  | SDel names => free z names
  end.
Definition subs_ok (f : file) : bool :=
  forallb (fun g => match f_package g with Some p => if Pos.eqb p (f_name f) then mem (f_short g) (subs (f_name f)) else true | None => true end) code.
Definition file_ok (f : file) : bool :=
  match f_package f with Some p => closed (f_name f) p && ours code p && negb (Pos.eqb p (f_name f)) | None => true end
  && forallb (stmt_ok (f_name f)) (f_body f)
  && subs_ok f
  && forallb (fun r => match nt (fst r) (f_name f) with Some a => free (fst r) a | None => true end) nt_table.

(** ** What is checked for every host *)
Definition table : Type := list (name * (ns * ires unit)).
Definition tn (T : table) (m : name) : ns := match look m T with Some (l, _) => l | None => [] end.
Definition tout (T : table) (m : name) : ires unit := match look m T with Some (_, r) => r | None => IOk tt end.
Definition value_eqb (a b : value) : bool := match a, b with VBool a, VBool b => Bool.eqb a b | VAny, VAny => true | _, _ => false end.
Definition final (l t : ns) (n : name) : bool := match look n l, look n t with Some a, Some b => value_eqb a b | _, _ => false end.
Section Abstract.
  Context (h : host) (strict : bool) (T : table) (z : name).
  Definition may_import (l : ns) (m : name) : bool :=
    if strict then
      match tout T z with IOk _ => true | _ => false end
      && match nt z m with Some a => forallb (final l (tn T z)) a | None => anc 4 z m end
    else true.
  Fixpoint take (t : ns) (names : list (name * name)) (got : ns) : option ns :=
    match names with
    | [] => Some got
    | (n, bound) :: names =>
        match look n t with
        | Some v => take t names ((bound, v) :: got)
        | None => if strict then None else take t names ((bound, VAny) :: got)
        end
    end.
  Definition all_in (names : list name) (l : ns) : bool := forallb (fun n => has n l) names.
  Fixpoint aexec (s : istmt) (l : ns) : option (ns * ires unit) :=
    let fix aexec_list (b : list istmt) (l : ns) : option (ns * ires unit) :=
      match b with
      | [] => Some (l, IOk tt)
      | s :: b => match aexec s l with Some (l, IOk _) => aexec_list b l | r => r end
      end in
    match s with
    | SImport m bound =>
        if ours code m then
          if may_import l m then
            match tout T m with IOk _ => Some (rev_append (any [bound]) l, IOk tt) | IErr e => Some (l, IErr e) end
          else None
        else if outside h m m then Some (rev_append (any [bound]) l, IOk tt) else Some (l, IErr ImportError_)
    | SFrom m names =>
        if ours code m then
          if may_import l m then
            match tout T m with
            | IOk _ => match take (tn T m) names [] with Some got => Some (rev_append (rev got) l, IOk tt) | None => None end
            | IErr e => Some (l, IErr e)
            end
          else None
        else if forallb (fun n => outside h m (fst n)) names then Some (rev_append (any (map snd names)) l, IOk tt)
        else Some (l, IErr ImportError_)
    | SBind names uses => if all_in uses l then Some (rev_append (any names) l, IOk tt) else Some (l, IErr NameError_)
    | SSet n e => match beval h e l with IOk b => Some (rev_append [(n, VBool b)] l, IOk tt) | IErr e => Some (l, IErr e) end
    | SIf e yes no => match beval h e l with IOk true => aexec_list yes l | IOk false => aexec_list no l | IErr e => Some (l, IErr e) end
    | STry body caught handler =>
        match aexec_list body l with
        | Some (l, IErr e) => if existsb (iexn_eqb e) caught then aexec_list handler l else Some (l, IErr e)
        | r => r
        end
    | SRaise e => Some (l, IErr e)
    | SDel names => if all_in names l then Some (fold_left (fun l n => drop n l) names l, IOk tt) else Some (l, IErr NameError_)
    end.
  Fixpoint aexec_list (b : list istmt) (l : ns) : option (ns * ires unit) :=
    match b with
    | [] => Some (l, IOk tt)
    | s :: b => match aexec s l with Some (l, IOk _) => aexec_list b l | r => r end
    end.
End Abstract.

(** An order in which what is imported comes first, except for packages *)
Definition order : list name :=
  ["ptrace.signames"; "ptrace.cpu_info"; "ptrace.ctypes_tools"; "ptrace.tools"; "ptrace.logging_tools"; "ptrace.error"; "ptrace.version"; "ptrace"; "ptrace.ctypes_libc"; "ptrace.pydistorm"; "ptrace.disasm"; "ptrace.func_arg"; "ptrace.func_call"; "ptrace.linux_proc"; "ptrace.mockup"; "ptrace.os_tools"; "ptrace.process_tools"; "ptrace.profiler"; "ptrace.terminal"; "ptrace.binding.openbsd_struct"; "ptrace.binding.freebsd_struct"; "ptrace.binding.linux_struct"; "ptrace.binding.func"; "ptrace.binding"; "ptrace.binding.cpu"; "ptrace.debugger.breakpoint"; "ptrace.debugger.process_event"; "ptrace.debugger.signal_reason"; "ptrace.debugger.parse_expr"; "ptrace.debugger.ptrace_signal"; "ptrace.debugger.process_error"; "ptrace.debugger.child"; "ptrace.debugger.backtrace"; "ptrace.debugger.memory_mapping"; "ptrace.syscall.linux"; "ptrace.syscall.linux.x86_64"; "ptrace.syscall.linux.i386"; "ptrace.syscall.linux.powerpc64"; "ptrace.syscall.linux.powerpc32"; "ptrace.syscall.linux.aarch64"; "ptrace.syscall.linux.riscv32"; "ptrace.syscall.linux.riscv64"; "ptrace.syscall.freebsd_syscall"; "ptrace.syscall.names"; "ptrace.syscall.prototypes"; "ptrace.syscall.posix_arg"; "ptrace.syscall.socketcall_constants"; "ptrace.syscall.socketcall_struct"; "ptrace.syscall.socketcall"; "ptrace.syscall.linux_struct"; "ptrace.syscall.posix_constants"; "ptrace.syscall.linux_constants"; "ptrace.syscall.freebsd_constants"; "ptrace.syscall.syscall_argument"; "ptrace.syscall.ptrace_syscall"; "ptrace.syscall"; "ptrace.debugger.syscall_state"; "ptrace.debugger.process"; "ptrace.debugger.debugger"; "ptrace.debugger.application"; "ptrace.debugger"; "strace"; "gdb"; "itrace"; "simple_dbg"].
Definition ordered : list file := flat_map (fun m => match find_file m code with Some f => [f] | None => [] end) order.
Fixpoint build (h : host) (l : list file) (T : table) : table :=
  match l with
  | [] => T
  | f :: l => match aexec_list h false T (f_name f) (f_body f) [] with Some r => build h l ((f_name f, r) :: T) | None => [] end
  end.
Fixpoint ns_eqb (a b : ns) : bool :=
  match a, b with [], [] => true | (n, v) :: a, (m, w) :: b => Pos.eqb n m && value_eqb v w && ns_eqb a b | _, _ => false end.
Definition res_eqb (a b : ires unit) : bool := match a, b with IOk _, IOk _ => true | IErr a, IErr b => iexn_eqb a b | _, _ => false end.
Definition check_file (h : host) (T : table) (f : file) : bool :=
  match aexec_list h true T (f_name f) (f_body f) [] with
  | Some (l, IOk _) => match tout T (f_name f) with IOk _ => ns_eqb l (tn T (f_name f)) | _ => false end
  | Some (l, IErr e) => match tout T (f_name f) with IErr e' => iexn_eqb e e' | _ => false end
  | None => false
  end
  && match f_package f with Some p => match tout T p with IOk _ => true | _ => false end | None => true end.
Definition check_with (h : host) (T : table) : bool := forallb (check_file h T) code.
Definition check (h : host) : bool := check_with h (build h ordered []).
