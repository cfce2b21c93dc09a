(** * TraceProps: property theorems about backtraces, stack and code dumps (C42, C60, C75). *)
From Coq Require Import ZArith List Ascii String Bool Lia.
From Verif Require Import PyBase Platform IntModel MapModel TraceModel TraceSpec TraceProofs.
Import ListNotations.
Open Scope Z_scope.

(** ** C42 Backtraces are bounded *)
Theorem c42_bounds : forall p read ip fp max_args max_depth frames t, getBacktrace p read ip fp max_args max_depth = Ok (frames, t) ->
  zlen frames <= Z.max 0 max_depth /\ Forall (fun f => zlen (fr_arguments f) <= Z.max 0 max_args) frames.
Proof. exact backtrace_bounds. Qed.
Print Assumptions c42_bounds.
(** The frames are the chain of frame pointers in memory, in order; the trace is truncated exactly when a frame follows the last. *)
Theorem c42_frames : forall p read ip fp max_args max_depth frames t, 0 < max_depth -> getBacktrace p read (Ok ip) (Ok fp) max_args max_depth = Ok (frames, t) ->
  exists l z, chain p read (ip, fp) l z /\
    Forall2 (fun x f => fr_ip f = fst x /\ argument_words p read (snd x) (Z.to_nat (argument_count p read max_args (snd x))) (fr_arguments f)) l frames /\
    zlen l <= max_depth /\ (t = true -> zlen l = max_depth /\ exists y, next_frame p read z y) /\ (t = false -> forall y, ~ next_frame p read z y).
Proof. exact backtrace_frames. Qed.
Print Assumptions c42_frames.
Theorem c42_no_depth : forall p read ip fp max_args max_depth, max_depth <= 0 -> getBacktrace p read (Ok ip) (Ok fp) max_args max_depth = Ok ([], true).
Proof. exact backtrace_nothing. Qed.
Print Assumptions c42_no_depth.
(** It always ends: an exception comes from reading registers or memory, never from an unfinished loop. *)
Theorem c42_terminates : forall p read ip fp max_args max_depth e, getBacktrace p read ip fp max_args max_depth = Err e ->
  ip = Err e \/ fp = Err e \/ exists a, read a = Err e.
Proof. exact backtrace_errors. Qed.
Print Assumptions c42_terminates.
(** Finding: an unreadable return address is not handled like an unreadable frame pointer: the error leaves getBacktrace and the
    frames found are lost. *)
Theorem c42_return_address_refuted : exists read ip fp, getBacktrace linux_x86_64 read (Ok ip) (Ok fp) 6 20 = Err (EPtraceError (Some 5)) /\ read fp = Ok (fp + 32).
Proof. exact return_address. Qed.
Print Assumptions c42_return_address_refuted.
(** The command shows every frame, and the limit *)
Theorem c42_command : forall p frames t, gdb_backtrace p (Ok (frames, t)) = Ok (map (frame_str p) frames ++ if t then [T "--limited to depth " ++ str_int (zlen frames) ++ T "--"] else []).
Proof. reflexivity. Qed.
Print Assumptions c42_command.
(** A frame pointer that points to itself; a stack with two frames, the second with one readable argument *)
Example c42_ex :
  getBacktrace linux_x86_64 (fun a => if a =? 4096 then Ok 4096 else Ok 7) (Ok 1) (Ok 4096) 6 3 = Ok ([Frame 1 []; Frame 7 []; Frame 7 []], true) /\
  getBacktrace linux_x86_64 (fun a => if a =? 4096 then Ok 4128 else if a =? 4104 then Ok 99 else if a =? 4112 then Ok 11 else if a =? 4120 then Ok 12 else Err (EPtraceError (Some 5)))
    (Ok 1) (Ok 4096) 6 20 = Ok ([Frame 1 [11; 12]; Frame 99 []], false) /\
  gdb_backtrace linux_x86_64 (Ok ([Frame 255 [1; 2]], true)) =
    Ok [T "IP=0x00000000000000ff: ??? (0x0000000000000001, 0x0000000000000002)"; T "--limited to depth 1--"].
Proof. repeat split; vm_compute; reflexivity. Qed.

(** ** C60 Disassembly windows *)
(** With a stop the size is between 1 and 1024 and does not go beyond the stop. *)
Theorem c60_window : forall start stop n, 1 <= window start (Some stop) n <= 1024 /\ (start <= stop -> window start (Some stop) n <= stop - start + 1).
Proof. exact window_bounds. Qed.
Print Assumptions c60_window.
(** The reads of a dump: one window, or with breakpoints at most ten windows of one instruction *)
Theorem c60_reads : forall p dis read bps start stop ip manage_bp,
  let l := reads_of (fst (dumpCode_ p dis read bps start stop ip manage_bp)) in
  match dis with
  | None => l = [(start, window start stop 32)]
  | Some D => if manage_bp then (List.length l <= 10)%nat /\ Forall (fun an => snd an = ds_max D) l
              else l = [(start, window start stop (10 * ds_max D))]
  end.
Proof. exact dump_reads. Qed.
Print Assumptions c60_reads.
Theorem c60_limit : forall p dis read bps ip start stop manage_bp, (forall D, dis = Some D -> 0 <= ds_max D <= 100) ->
  Forall (fun an => snd an <= 1024) (reads_of (fst (dumpCode p dis read bps ip start stop manage_bp))).
Proof. exact dump_code_reads. Qed.
Print Assumptions c60_limit.
(** PtraceErrors are reported, not raised. *)
Theorem c60_errors : forall p dis read bps ip start stop manage_bp e, snd (dumpCode p dis read bps ip start stop manage_bp) = Err e -> is_ptrace_error e = false.
Proof. exact dump_code_errors. Qed.
Print Assumptions c60_errors.
Theorem c60_disassemble : forall D read ip start stop nb l, snd (disassemble (Some D) read ip start stop nb) = Ok l ->
  exists s code, match start with Some s' => s' = s | None => ip = Ok s end /\
    read s (match stop with Some t => Z.max s t - s + 1 | None => (match nb with Some n => n | None => 10 end) * ds_max D end) = Ok code /\
    exists rest, ds_decode D s code = l ++ rest /\
      match nb with
      | Some n => 1 <= n -> zlen l <= n /\ (zlen l < n -> rest = [])
      | None => match stop with Some _ => rest = [] | None => zlen l <= 10 /\ (zlen l < 10 -> rest = []) end
      end.
Proof. exact disassemble_spec. Qed.
Print Assumptions c60_disassemble.
Theorem c60_one : forall D read ip address, snd (disassembleOne (Some D) read ip address) =
  do a <- match address with Some a => Ok a | None => ip end;
  do code <- read a (ds_max D);
  match ds_decode D a code with i :: _ => Ok i | [] => Err (EPtraceError None) end.
Proof. exact one_spec. Qed.
Print Assumptions c60_one.
Theorem c60_no_disassembler : forall read ip start stop nb, snd (disassemble None read ip start stop nb) = Err ENotImplementedError /\ snd (disassembleOne None read ip start) = Err ENotImplementedError.
Proof. exact no_disassembler. Qed.
Print Assumptions c60_no_disassembler.
(** The lines: every instruction of the window, the current one marked *)
Theorem c60_lines : forall p D read bps start stop ip l,
  snd (disassemble (Some D) read (Err EUndefined) (Some start) (match stop with Some s => Some (Z.min (Z.max start s) (start + 1023)) | None => None end) None) = Ok l ->
  lines_of (fst (dumpCode_ p (Some D) read bps start stop ip false)) = T "CODE:" :: map (instr_line p ip) l /\ snd (dumpCode_ p (Some D) read bps start stop ip false) = Ok tt.
Proof. exact dump_lines. Qed.
Print Assumptions c60_lines.
Theorem c60_breakpoints : forall p D read bps start stop ip, snd (dumpCode_ p (Some D) read bps start stop ip true) = Ok tt ->
  exists l, walk D read bps (match stop with Some s => Some (Z.min (Z.max start s) (start + 1023)) | None => None end) 10 start l /\ (List.length l <= 10)%nat /\
    lines_of (fst (dumpCode_ p (Some D) read bps start stop ip true)) =
      T "CODE:" :: map (fun x : instruction * bool => instr_line p ip (fst x) ++ (if snd x then T "     * BREAKPOINT *" else [])) l.
Proof. exact dump_bp_lines. Qed.
Print Assumptions c60_breakpoints.
Theorem c60_plain : forall p read start stop ip bps code, read start (window start stop 32) = Ok code ->
  dumpCode_ p None read bps start stop ip false = ([Read start (window start stop 32); Line (T "CODE: " ++ hex_bytes code)], Ok tt).
Proof. exact hex_bytes_read. Qed.
Print Assumptions c60_plain.
(** A decoder of one-byte instructions *)
Example c60_ex :
  let D := Disassembler 11 (fun a code => map (fun i => Instr (a + i) 1 (T "NOP") (T "90")) (zrange (List.length code))) in
  let read := fun (a n : Z) => if n <=? 1024 then Ok (repeat "144"%char (Z.to_nat n)) else Err (EPtraceError (Some 5)) in
  zlen (lines_of (fst (dumpCode linux_x86_64 (Some D) read [] (Ok 4096) None (Some 999999) false))) = 1025 /\
  dumpCode linux_x86_64 (Some D) read [(4097, ["144"%char])] (Ok 4096) None (Some 4098) true =
    ([Line (T "CODE:"); Read 4096 11; Line (T "0x0000000000001000| NOP (90) <=="); Line (T "0x0000000000001001| NOP (90)     * BREAKPOINT *")], Ok tt) /\
  dumpCode linux_x86_64 None read [] (Ok 4096) None (Some 4097) false = ([Read 4096 2; Line (T "CODE: 90 90")], Ok tt) /\
  snd (disassemble (Some D) read (Ok 4096) None None (Some 2)) = Ok [Instr 4096 1 (T "NOP") (T "90"); Instr 4097 1 (T "NOP") (T "90")].
Proof. cbv zeta. repeat split; vm_compute; reflexivity. Qed.

(** ** C75 Stack dump *)
(** The eleven words around the stack pointer, each with its offset and value; unreadable ones are left out; an error if there is none *)
Theorem c75_words : forall p read sp lines, dumpStack_ p read sp = Ok lines ->
  let shown := flat_map (fun i => match read (sp + i * word_size p) with Ok v => [T "STACK" ++ signed3 (i * word_size p) ++ T ": " ++ formatWordHex p v] | Err _ => [] end) [-5; -4; -3; -2; -1; 0; 1; 2; 3; 4; 5] in
  (shown <> [] /\ lines = shown) \/ (shown = [] /\ lines = [T "ERROR: unable to read the stack (SP=" ++ formatAddress p sp ++ T ")"]).
Proof. exact stack_dump. Qed.
Print Assumptions c75_words.
Theorem c75_errors : forall p read maps sp e, dumpStack p read maps sp = Err e -> maps = Err e \/ sp = Err e \/ (is_ptrace_error e = false /\ exists a, read a = Err e).
Proof. exact stack_errors. Qed.
Print Assumptions c75_errors.
Theorem c75_mapping : forall p read maps sp lines, dumpStack_ p read sp = Ok lines ->
  dumpStack p read (Ok maps) (Ok sp) = Ok (match findStack maps with Some m => [T "STACK: " ++ map_str p m] | None => [] end ++ lines).
Proof. exact stack_mapping. Qed.
Print Assumptions c75_mapping.
Example c75_ex : dumpStack_ linux_x86_64 (fun a => if (a <? 4096) && (4070 <? a) then Ok (a + 1) else Err (EPtraceError (Some 5))) 4080 =
  Ok [T "STACK -8: 0x0000000000000fe9"; T "STACK +0: 0x0000000000000ff1"; T "STACK +8: 0x0000000000000ff9"] /\
  signed3 (-40) = T "-40" /\ signed3 16 = T "+16".
Proof. repeat split; vm_compute; reflexivity. Qed.
(** The texts.  A frame (C42) *)
Theorem c42_frame_text : forall p ip a args, frame_str p (Frame ip []) = T "IP=" ++ formatAddress p ip ++ T ": ??? ()" /\
  frame_str p (Frame ip (a :: args)) = T "IP=" ++ formatAddress p ip ++ T ": ??? (" ++ formatWordHex p a ++ List.concat (map (fun x => T ", " ++ formatWordHex p x) args) ++ T ")".
Proof. exact frame_text. Qed.
Print Assumptions c42_frame_text.
Example c42_frame_text_ex : frame_str linux_i386 (Frame 4096 [1; 2]) = T "IP=0x00001000: ??? (0x00000001, 0x00000002)".
Proof. vm_compute. reflexivity. Qed.
(** The errors caught by "except PtraceError" *)
Theorem c60_caught : forall e, is_ptrace_error e = true <-> (exists errno, e = EPtraceError errno) \/ e = EProcessError \/ e = EDebuggerError.
Proof. exact caught. Qed.
Print Assumptions c60_caught.
(** An instruction, the current one marked *)
Theorem c60_line_text : forall p ip i, instr_line p ip i = formatAddress p (in_address i) ++ T "| " ++ in_text i ++ T " (" ++ in_hexa i ++ T ")" ++ (if match ip with Some a => in_address i =? a | None => false end then T " <==" else []).
Proof. exact line_text. Qed.
Print Assumptions c60_line_text.
Example c60_line_text_ex : instr_line linux_i386 (Some 4096) (Instr 4096 1 (T "NOP") (T "90")) = T "0x00001000| NOP (90) <==".
Proof. vm_compute. reflexivity. Qed.
(** Bytes: two digits each, separated by spaces *)
Theorem c60_hex_text : forall code, code <> [] -> map (read_uint 16) (split_char " "%char (hex_bytes code)) = map (fun b => Some (b2z b)) code /\
  Forall (fun t => List.length t = 2%nat) (split_char " "%char (hex_bytes code)).
Proof. exact hex_text. Qed.
Print Assumptions c60_hex_text.
Example c60_hex_text_ex : hex_bytes [z2b 144; z2b 7] = T "90 07".
Proof. vm_compute. reflexivity. Qed.
(** What is logged when the instruction pointer or the code cannot be read *)
Theorem c60_messages : forall p dis read bps ip start stop manage_bp e, is_ptrace_error e = true ->
  (ip = Err e -> start = None -> dumpCode p dis read bps ip start stop manage_bp = ([Line (T "Unable to read instruction pointer: ")], Ok tt)) /\
  (forall s l, snd (dumpCode_ p dis read bps s stop (match ip with Ok i => Some i | Err _ => None end) manage_bp) = Err e ->
     fst (dumpCode_ p dis read bps s stop (match ip with Ok i => Some i | Err _ => None end) manage_bp) = l ->
     start = Some s \/ (start = None /\ ip = Ok s) -> (forall e', ip = Err e' -> is_ptrace_error e' = true) ->
     dumpCode p dis read bps ip start stop manage_bp = (l ++ [Line (T "Unable to dump code at " ++ formatAddress p s ++ T ": ")], Ok tt)).
Proof. exact dump_messages. Qed.
Print Assumptions c60_messages.
Example c60_messages_ex : dumpCode linux_i386 None (fun _ _ => Err (EPtraceError (Some 5))) [] (Ok 4096) None None false =
  ([Read 4096 32; Line (T "Unable to dump code at 0x00001000: ")], Ok tt).
Proof. vm_compute. reflexivity. Qed.
(** The offset in a stack dump (C75): its sign and its decimal digits, at least three characters *)
Theorem c75_offset_text : forall n, exists pad, signed3 n = repeat " "%char pad ++ (if n <? 0 then T "-" else T "+") ++ digits 10 (Z.abs n) /\
  List.length (signed3 n) = Nat.max 3 (1 + List.length (digits 10 (Z.abs n))).
Proof. exact signed_text. Qed.
Print Assumptions c75_offset_text.
Example c75_offset_text_ex : map signed3 [-40; 0; 8; 40; 100] = [T "-40"; T " +0"; T " +8"; T "+40"; T "+100"].
Proof. vm_compute. reflexivity. Qed.
