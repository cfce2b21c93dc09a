(** * BreakModel: software breakpoints (ptrace/debugger/breakpoint.py and the breakpoint methods of
    ptrace/debugger/process.py). *)
From Coq Require Import ZArith List Ascii String Bool.
From Verif Require Import PyBase Platform IntModel CallModel MemModel StructModel RegModel.
Import ListNotations.
Open Scope Z_scope.

(** A Breakpoint object. *)
Record bpoint : Type := BP {
  bp_address : Z;
  bp_size : Z;
  bp_old : list byte;
  bp_installed : bool
}.

(** The process: memory, registers, attribute [running], all Breakpoint objects ever returned (an
    object is referred to by its index) and the dictionary [breakpoints] from addresses to objects.
    The process object is alive (the weak reference is valid). *)
Record bstate : Type := BState {
  b_mem : pstate;
  b_regs : rstate;
  b_running : bool;
  b_objs : list bpoint;
  b_dict : list (Z * nat)
}.
Definition with_mem (st : bstate) (m : pstate) : bstate :=
  BState m (b_regs st) (b_running st) (b_objs st) (b_dict st).
Definition with_regs (st : bstate) (r : rstate) : bstate :=
  BState (b_mem st) r (b_running st) (b_objs st) (b_dict st).
Definition with_objs (st : bstate) (o : list bpoint) : bstate :=
  BState (b_mem st) (b_regs st) (b_running st) o (b_dict st).
Definition with_dict (st : bstate) (d : list (Z * nat)) : bstate :=
  BState (b_mem st) (b_regs st) (b_running st) (b_objs st) d.

Definition B (A : Type) : Type := bstate -> bstate * res A.

Fixpoint set_nth {A} (n : nat) (x : A) (l : list A) : list A :=
  match l, n with
  | [], _ => []
  | _ :: l, O => x :: l
  | y :: l, S n => y :: set_nth n x l
  end.

Section Breakpoints.
  Context (E : penv) (K : rkernel).
  Let p := e_p E.

  (** ptrace/debugger/breakpoint.py 20-23 *)
  Definition break_size (size : option Z) : Z :=
    if is_powerpc (p_cpu p) then word_size p
    else match size with None => 1 | Some n => n end.
  (** ptrace/debugger/breakpoint.py 30-35: [b"\xCC" * size] is empty for a negative size *)
  Definition break_bytes (size : Z) : res (list byte) :=
    if is_powerpc (p_cpu p) then word2bytes p 0x0cc00000
    else Ok (repeat (z2b 0xcc) (Z.to_nat size)).

  (** ptrace/debugger/breakpoint.py 16-37.  When reading or writing raises, the half-built object is not installed, so its
      destructor does nothing. *)
  Definition new_breakpoint (address : Z) (size : option Z) : M bpoint :=
    let size := break_size size in
    old_bytes <~ readBytes E address size;
    new_bytes <~ lift (break_bytes size);
    _ <~ writeBytes E address new_bytes;
    ret (BP address size old_bytes true).

  (** ptrace/debugger/process.py 741-745: objects in dictionary order *)
  Fixpoint find_in (address : Z) (objs : list bpoint) (d : list (Z * nat)) : option nat :=
    match d with
    | [] => None
    | (_, id) :: d =>
        match nth_error objs id with
        | Some bp =>
            if (bp_address bp <=? address) && (address <? bp_address bp + bp_size bp) then Some id
            else find_in address objs d
        | None => find_in address objs d
        end
    end.
  Definition findBreakpoint (address : Z) (st : bstate) : option nat :=
    find_in address (b_objs st) (b_dict st).

  (** ptrace/debugger/process.py 747-753; the result is the new object *)
  Definition createBreakpoint (address : Z) (size : option Z) : B nat :=
    fun st =>
      match findBreakpoint address st with
      | Some _ => (st, Err EProcessError)
      | None =>
          match new_breakpoint address size (b_mem st) with
          | (m, Err e) => (with_mem st m, Err e)
          | (m, Ok bp) =>
              let id := List.length (b_objs st) in
              (with_dict (with_objs (with_mem st m) (b_objs st ++ [bp]))
                 (dset Z.eqb address id (b_dict st)), Ok id)
          end
      end.

  (** ptrace/debugger/process.py 758-759 *)
  Definition removeBreakpoint (bp : bpoint) : B unit :=
    fun st =>
      if dmem Z.eqb (bp_address bp) (b_dict st)
      then (with_dict st (ddel Z.eqb (bp_address bp) (b_dict st)), Ok tt)
      else (st, Err EKeyError).

  (** ptrace/debugger/breakpoint.py 39-55 *)
  Definition desinstall (id : nat) (set_ip : bool) : B unit :=
    fun st =>
      match nth_error (b_objs st) id with
      | None => (st, Ok tt)   (* no such object: cannot happen *)
      | Some bp =>
          if negb (bp_installed bp) then (st, Ok tt)
          else
            let st := with_objs st (set_nth id (BP (bp_address bp) (bp_size bp) (bp_old bp) false) (b_objs st)) in
            let '(st, r) :=
              if b_running st
              then let (m, r) := writeBytes E (bp_address bp) (bp_old bp) (b_mem st) in (with_mem st m, r)
              else (st, Ok tt) in
            match r with
            | Err e => (st, Err e)
            | Ok _ =>
                let '(st, r) :=
                  if set_ip
                  then let (rg, r) := setInstrPointer K p (bp_address bp) (b_regs st) in (with_regs st rg, r)
                  else (st, Ok tt) in
                match r with
                | Err e => (st, Err e)
                | Ok _ => removeBreakpoint bp st
                end
            end
      end.
End Breakpoints.
