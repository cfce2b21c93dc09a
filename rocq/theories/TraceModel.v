(** * TraceModel: backtraces (ptrace/debugger/backtrace.py), stack and code dumps (ptrace/debugger/process.py), disassembly
    (ptrace/disasm.py).  Simplification: the text of an exception inside a logged message is left out. *)
From Coq Require Import ZArith List Ascii String Bool.
From Verif Require Import PyBase Platform IntModel MapModel.
Import ListNotations.
Open Scope Z_scope.

(** ptrace/debugger/backtrace.py 6-24.  The name is always "???". *)
Record frame : Type := Frame { fr_ip : Z; fr_arguments : list Z }.
Definition frame_str (p : platform) (f : frame) : text :=
  T "IP=" ++ formatAddress p (fr_ip f) ++ T ": " ++ T "???" ++ T " (" ++ join (T ", ") (map (formatWordHex p) (fr_arguments f)) ++ T ")".
(** The exceptions caught by "except PtraceError" (ptrace/error.py 55, debugger.py 16, process_error.py 4) *)
Definition is_ptrace_error (e : exn) : bool :=
  match e with EPtraceError _ | EProcessError | EDebuggerError => true | _ => false end.

Section Backtrace.
  Context (p : platform) (read : Z -> res Z).   (* process.readWord; the process is stopped *)
  (** 97-116: the for loop.  The arguments read, until a PtraceError *)
  Fixpoint read_arguments (nargs : nat) (address : Z) : res (list Z) :=
    match nargs with
    | O => Ok []
    | S nargs =>
        let address := address + word_size p in
        match read address with
        | Ok word => do rest <- read_arguments nargs address; Ok (word :: rest)
        | Err e => if is_ptrace_error e then Ok [] else Err e
        end
    end.
  Definition getBacktraceFrame (ip fp nargs : Z) : res frame :=
    do args <- read_arguments (Z.to_nat nargs) (fp + word_size p);
    Ok (Frame ip args).
  (** 44-94: the while loop: the frames, and whether the trace is truncated *)
  Fixpoint backtrace_loop (fuel : nat) (max_args max_depth ip fp depth : Z) : res (list frame * bool) :=
    match fuel with
    | O => Err EDiverges
    | S fuel =>
        if max_depth <=? depth then Ok ([], true)
        else
          do nextfp <- match read fp with
                       | Ok w => Ok (Some w)
                       | Err e => if is_ptrace_error e then Ok None else Err e
                       end;
          let next := match nextfp with Some w => if w =? 0 then None else Some w | None => None end in
          let nargs := match next with
                       | Some w => if fp =? 0 then 0 else Z.min ((w - fp) / word_size p - 2) max_args
                       | None => 0
                       end in
          do frame <- getBacktraceFrame ip fp nargs;
          match next with
          | None => Ok ([frame], false)
          | Some nextfp =>
              do ip <- read (fp + word_size p);
              if ip =? max_uint p then Ok ([frame], false)
              else
                do r <- backtrace_loop fuel max_args max_depth ip nextfp (depth + 1);
                Ok (frame :: fst r, snd r)
          end
    end.
  (** [ip], [fp]: process.getInstrPointer(), process.getFramePointer() *)
  Definition getBacktrace (ip fp : res Z) (max_args max_depth : Z) : res (list frame * bool) :=
    do ip <- ip;
    do fp <- fp;
    backtrace_loop (S (Z.to_nat max_depth)) max_args max_depth ip fp 0.
End Backtrace.
(** gdb.py 495-501: the lines shown *)
Definition gdb_backtrace (p : platform) (r : res (list frame * bool)) : res (list text) :=
  do r <- r;
  Ok (map (frame_str p) (fst r) ++ (if snd r then [T "--limited to depth " ++ str_int (zlen (fst r)) ++ T "--"] else [])).

(** ** Stack: ptrace/debugger/process.py 675-695 *)
(** "%+ 3i" % n *)
Definition signed3 (n : Z) : text := padl 3 " "%char ((if n <? 0 then T "-" else T "+") ++ digits 10 (Z.abs n)).
Section Stack.
  Context (p : platform) (read : Z -> res Z) (sp : Z).
  (** 686-693: the loop over the words around the stack pointer; lines, or the exception that is not a PtraceError *)
  Fixpoint stack_lines (indexes : list Z) : res (list text) :=
    match indexes with
    | [] => Ok []
    | index :: indexes =>
        let delta := index * word_size p in
        do line <- match read (sp + delta) with
                   | Ok value => Ok [T "STACK" ++ signed3 delta ++ T ": " ++ formatWordHex p value]
                   | Err e => if is_ptrace_error e then Ok [] else Err e
                   end;
        do lines <- stack_lines indexes;
        Ok (line ++ lines)
    end.
  Definition dumpStack_ : res (list text) :=
    do lines <- stack_lines (map (fun i => i - 5) (zrange 11));
    Ok (match lines with [] => [T "ERROR: unable to read the stack (SP=" ++ formatAddress p sp ++ T ")"] | _ => lines end).
End Stack.
(** 675-681.  [maps]: readMappings(), [sp]: getStackPointer().  The lines logged before an exception are not shown. *)
Definition dumpStack (p : platform) (read : Z -> res Z) (maps : res (list mapping)) (sp : res Z) : res (list text) :=
  do maps <- maps;
  do sp <- sp;
  do lines <- dumpStack_ p read sp;
  Ok (match findStack maps with Some m => [T "STACK: " ++ map_str p m] | None => [] end ++ lines).

(** ** Disassembly *)
(** ptrace/disasm.py 32-52: address, size, text and bytes *)
Record instruction : Type := Instr { in_address : Z; in_size : Z; in_text : text; in_hexa : text }.
(** The disassembler: [None] when it is not available (disasm.py 73-75), otherwise MAX_INSTR_SIZE and the function
    Decode of distorm *)
Record disassembler : Type := Disassembler { ds_max : Z; ds_decode : Z -> list byte -> list instruction }.
(** disasm.py 9-29: MAX_INSTR_SIZE *)
Definition MAX_INSTR_SIZE (p : platform) : option Z :=
  match p_cpu p with X86_64 => Some 11 | I386 => Some 8 | _ => None end.
(** disasm.py 6-29, 72-75 with distorm3 ([decode] is its function Decode for the mode chosen there): HAS_DISASSEMBLER is false on
    another processor *)
Definition host_disassembler (p : platform) (decode : Z -> list byte -> list instruction) : option disassembler :=
  match MAX_INSTR_SIZE p with Some m => Some (Disassembler m decode) | None => None end.
(** disasm.py 57-63 and 65-72 *)
Definition disassemble_code (D : disassembler) (code : list byte) (address : Z) : list instruction := ds_decode D address code.
Definition disassembleOne_code (D : disassembler) (code : list byte) (address : Z) : res instruction :=
  match disassemble_code D code address with
  | instr :: _ => Ok instr
  | [] => Err (EPtraceError None)
  end.

(** What a dump does: reads of memory (address, size) and lines logged *)
Inductive action : Type := Read (address size : Z) | Line (line : text).
Definition L (A : Type) : Type := list action * res A.
Definition lbind {A B} (m : L A) (f : A -> L B) : L B :=
  match m with
  | (log, Ok a) => let '(log', r) := f a in (log ++ log', r)
  | (log, Err e) => (log, Err e)
  end.
Definition lret {A} (a : A) : L A := ([], Ok a).
Definition lres {A} (r : res A) : L A := ([], r).
Definition log (t : text) : L unit := ([Line t], Ok tt).
Notation "x <<- m ; f" := (lbind m (fun x => f)) (at level 60, m at next level, right associativity).

(** ptrace/debugger/process.py 58-60 *)
Definition MIN_CODE_SIZE : Z := 32.
Definition MAX_CODE_SIZE : Z := 1024.
Definition DEFAULT_NB_INSTR : Z := 10.
Section Code.
  Context (p : platform) (dis : option disassembler) (read : Z -> Z -> res (list byte)) (breakpoints : list (Z * list byte)).
  (* [breakpoints]: process.breakpoints, address -> old_bytes *)
  Definition readBytes (address size : Z) : L (list byte) := ([Read address size], read address size).
  (** 258-275: the instructions yielded.  [ip]: getInstrPointer() *)
  Definition disassemble (ip : res Z) (start stop nb_instr : option Z) : L (list instruction) :=
    match dis with
    | None => lres (Err ENotImplementedError)
    | Some D =>
        start <<- lres (match start with Some s => Ok s | None => ip end);
        let '(size, nb_instr) :=
          match stop with
          | Some stop => (Z.max start stop - start + 1, nb_instr)
          | None => let nb := match nb_instr with Some n => n | None => DEFAULT_NB_INSTR end in (nb * ds_max D, Some nb)
          end in
        code <<- readBytes start size;
        let all := disassemble_code D code start in
        lret (match nb_instr with
              | Some n => if n =? 0 then all else firstn (Z.to_nat (Z.max 1 n)) all
              | None => all
              end)
    end.
  (** 277-283 *)
  Definition disassembleOne (ip : res Z) (address : option Z) : L instruction :=
    match dis with
    | None => lres (Err ENotImplementedError)
    | Some D =>
        address <<- lres (match address with Some a => Ok a | None => ip end);
        code <<- readBytes address (ds_max D);
        lres (disassembleOne_code D code address)
    end.
  (** 240-243, 252-255 *)
  Definition instr_line (ip : option Z) (instr : instruction) : text :=
    formatAddress p (in_address instr) ++ T "| " ++ in_text instr ++ T " (" ++ in_hexa instr ++ T ")" ++
    match ip with Some i => if in_address instr =? i then T " <==" else [] | None => [] end.
  (** 230-249: the loop over ten lines *)
  Fixpoint bp_lines (D : disassembler) (n : nat) (ip stop : option Z) (address : Z) : L unit :=
    match n with
    | O => lret tt
    | S n =>
        let bp := dget Z.eqb address breakpoints in
        instr <<- match bp with
                  | Some bytes => lres (disassembleOne_code D bytes address)
                  | None => disassembleOne (Err EUndefined) (Some address)
                  end;
        _ <<- log (instr_line ip instr ++ match bp with Some _ => T "     * BREAKPOINT *" | None => [] end);
        let address := address + in_size instr in
        if match stop with Some s => s <=? address | None => false end then lret tt
        else bp_lines D n ip stop address
    end.
  Fixpoint log_all (l : list text) : L unit :=
    match l with
    | [] => lret tt
    | t :: l => _ <<- log t; log_all l
    end.
  Definition hex_bytes (code : list byte) : text := join (T " ") (map (fun b => padl 2 "0"%char (digits 16 (b2z b))) code).
  (** 211-256 *)
  Definition dumpCode_ (start : Z) (stop ip : option Z) (manage_bp : bool) : L unit :=
    let stop := match stop with Some s => Some (Z.min (Z.max start s) (start + MAX_CODE_SIZE - 1)) | None => None end in
    match dis with
    | None =>
        let size := match stop with Some s => s - start + 1 | None => MIN_CODE_SIZE end in
        code <<- readBytes start size;
        log (T "CODE: " ++ hex_bytes code)
    | Some D =>
        _ <<- log (T "CODE:");
        if manage_bp then bp_lines D 10 ip stop start
        else
          instrs <<- disassemble (Err EUndefined) (Some start) stop None;
          log_all (map (instr_line ip) instrs)
    end.
  (** 192-209 *)
  Definition dumpCode (ip : res Z) (start stop : option Z) (manage_bp : bool) : L unit :=
    match ip, start with
    | Err e, None => if is_ptrace_error e then log (T "Unable to read instruction pointer: ") else lres (Err e)
    | Err e, Some start =>
        if is_ptrace_error e then
          match dumpCode_ start stop None manage_bp with
          | (l, Err e) => if is_ptrace_error e then (l ++ [Line (T "Unable to dump code at " ++ formatAddress p start ++ T ": ")], Ok tt) else (l, Err e)
          | r => r
          end
        else lres (Err e)
    | Ok ip, _ =>
        let start := match start with Some s => s | None => ip end in
        match dumpCode_ start stop (Some ip) manage_bp with
        | (l, Err e) => if is_ptrace_error e then (l ++ [Line (T "Unable to dump code at " ++ formatAddress p start ++ T ": ")], Ok tt) else (l, Err e)
        | r => r
        end
    end.
End Code.
