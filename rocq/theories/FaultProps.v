(** * FaultProps: theorems about the analysis of signals (C52, C53, C83-C88, C109). *)
From Coq Require Import ZArith List Ascii String Bool Lia.
From Verif Require Import PyBase Platform IntModel RegexModel PyEval ExprModel SigModel MapModel TraceModel FaultModel FaultSpec FaultProofs FaultProofs2 FaultProofs3 FaultProofs4 FaultProofs5.
Import ListNotations.
Open Scope Z_scope.

(** ** C52 *)
Theorem c52_instruction_error : forall p eval tg s, running_linux p = true -> tg_siginfo tg = Ok s ->
  forall r, memoryFault p eval tg = Ok r -> (r_kind r = InstructionError <-> tg_ip tg = Ok (si_addr s)).
Proof. exact kind_ip. Qed.
Print Assumptions c52_instruction_error.
Example c52_instruction_error_ex : exists r, memoryFault linux_x86_64 no_eval (Target 42 some_regs (Ok 16) (Ok 140737488355000) (Ok two_maps) None (Ok (SigInfo 16 0 0 0))) = Ok r /\ r_kind r = InstructionError /\
  r_text r = T "UNABLE TO EXECUTE CODE AT 0x0000000000000010 (SEGMENTATION FAULT)".
Proof. exact ip_ex. Qed.
Theorem c52_stack_overflow : forall p eval tg s, running_linux p = true -> tg_siginfo tg = Ok s ->
  forall r sp m, memoryFault p eval tg = Ok r ->
  (r_kind r = StackOverflow sp m <->
   tg_ip tg <> Ok (si_addr s) /\ tg_sp tg = Ok sp /\ out_of_stack sp m /\ exists maps, tg_mappings tg = Ok maps /\ first_stack maps m).
Proof. exact kind_stack. Qed.
Print Assumptions c52_stack_overflow.
Example c52_stack_overflow_ex : exists r, memoryFault linux_x86_64 no_eval (Target 42 some_regs (Ok 4194304) (Ok 140737488224248) (Ok two_maps) (Some (Ok (instr "PUSH RAX"))) (Ok (SigInfo 140737488224248 0 0 0))) = Ok r /\
  r_kind r = StackOverflow 140737488224248 stack_map.
Proof. exact stack_ex. Qed.
Theorem c52_access : forall p eval tg s, running_linux p = true -> tg_siginfo tg = Ok s ->
  forall r, memoryFault p eval tg = Ok r -> tg_ip tg <> Ok (si_addr s) -> (forall sp m, r_kind r <> StackOverflow sp m) ->
  exists acc, r_kind r = InvalidAccess acc /\ r_name r = access_title p acc (Some (FInt (si_addr s))) /\
              exists rest, r_text r = access_text p acc (Some (FInt (si_addr s))) ++ rest.
Proof. exact kind_other. Qed.
Print Assumptions c52_access.
Example c52_access_ex : exists r, report_of "MOV [RAX], RBX" 0 = Ok r /\ r_kind r = InvalidAccess WriteAccess /\ r_name r = T "invalid_write-null" /\ r_text r = T "Invalid write to NULL" /\
  r_mappings r = [T "NULL is not mapped in memory"] /\ r_registers r = [(T "rax", 0); (T "rbx", 4096)].
Proof. exact write_ex. Qed.
(** The texts of the other two reports *)
Theorem c52_stack_text : forall p eval tg s r sp m, running_linux p = true -> tg_siginfo tg = Ok s -> memoryFault p eval tg = Ok r -> r_kind r = StackOverflow sp m ->
  r_text r = T "STACK OVERFLOW! Stack pointer is in " ++ map_str p m /\ In (T "<stack ptr>", sp) (r_registers r) /\ findMappings p (Some (FInt sp)) (Some tg) None = Ok (r_mappings r).
Proof. exact stack_said. Qed.
Print Assumptions c52_stack_text.
Theorem c52_instruction_text : forall p eval tg s r, running_linux p = true -> tg_siginfo tg = Ok s -> memoryFault p eval tg = Ok r -> r_kind r = InstructionError ->
  r_text r = T "UNABLE TO EXECUTE CODE AT " ++ formatAddress p (si_addr s) ++ T " (SEGMENTATION FAULT)" /\ r_instr r = None /\ r_registers r = [(T "<instr pointer>", si_addr s)] /\
  findMappings p (Some (FInt (si_addr s))) (Some tg) None = Ok (r_mappings r).
Proof. exact ip_said. Qed.
Print Assumptions c52_instruction_text.
(** The name of every report *)
Theorem c52_names : forall p ns eval tg n r s, running_linux p = true -> tg_siginfo tg = Ok s -> analyze p ns eval tg n = Ok (Some r) -> r_name r = report_title p (si_addr s) (r_kind r).
Proof. exact all_titled. Qed.
Print Assumptions c52_names.
Example c52_names_ex : exists r, analyze linux_x86_64 linux_signals no_eval (fault "MOV [RAX], RBX" 4096) 11 = Ok (Some r) /\ r_name r = T "invalid_write-0x0000000000001000".
Proof. eexists. split; vm_compute; reflexivity. Qed.
(** There is a report when the process can be read ([readable]: reading a register, the instruction pointer or the
    instruction raises nothing but ptrace errors) and, on Intel processors, the instruction has operands. *)
Theorem c52_total_partial : forall p eval tg s, running_linux p = true -> tg_siginfo tg = Ok s ->
  readable tg -> has_operands p tg -> exists r, memoryFault p eval tg = Ok r.
Proof. exact memory_total. Qed.
Print Assumptions c52_total_partial.
(** Without operands the analysis fails: IndexError *)
Theorem c52_total_refuted : exists tg, readable tg /\ memoryFault linux_x86_64 no_eval tg = Err EIndexError.
Proof. exact (ex_intro _ (fault "RET" 16) (conj (proj2 ret_fails) (proj1 ret_fails))). Qed.
Print Assumptions c52_total_refuted.
(** Where there is no siginfo (BSD), MOVS fails: TypeError *)
Theorem c52_bsd_refuted : exists tg, tg_mappings tg = Ok two_maps /\ (forall n, exists v, tg_getreg tg n = Ok v) /\
  tg_instr tg = Some (Ok (instr "MOVSB ")) /\ memoryFault freebsd_x86_64 no_eval tg = Err ETypeError.
Proof. exact bsd_movs_fails. Qed.
Print Assumptions c52_bsd_refuted.
(** Which analysis for which signal (numbers of Linux: SIGSEGV 11, SIGBUS 7, SIGFPE 8, SIGCHLD 17, SIGABRT 6) *)
Theorem c52_dispatch : forall p eval tg n, analyze p linux_signals eval tg n =
  if (n =? 11) || (n =? 7) then (do r <- memoryFault p eval tg; Ok (Some r))
  else if n =? 8 then mathError p tg
  else if n =? 17 then (do r <- childExit p linux_signals tg; Ok (Some r))
  else if n =? 6 then Ok (Some (Reason Abort (T "abort") (T "Program received signal SIGABRT, Aborted.") None [] []))
  else Ok None.
Proof. exact dispatch. Qed.
Print Assumptions c52_dispatch.

(** ** C53 *)
Theorem c53_exact_partial : forall p tg maps a size, tg_mappings tg = Ok maps -> maps <> [] -> 1 <= size -> Forall (fun m => size <= mp_end m - mp_start m) maps ->
  findMappings p (Some (FInt a)) (Some tg) (Some size) = Ok (report p a size (filter (overlap a size) maps)).
Proof. exact mappings_known. Qed.
Print Assumptions c53_exact_partial.
(** [overlap] decides that one of the bytes is in the mapping *)
Theorem c53_overlap : forall a size m, overlap a size m = true <-> touches a size m.
Proof. exact overlap_touches. Qed.
Print Assumptions c53_overlap.
Example c53_exact_partial_ex : findMappings linux_x86_64 (Some (FInt 4194302)) (Some (fault "RET" 0)) (Some 4) =
  Ok [T "0x00000000003ffffe..0x0000000000400001 is part of 0x0000000000400000-0x0000000000401000 => /bin/prog (r-xp)"].
Proof. vm_compute. reflexivity. Qed.
(** Whatever the size, what is reported is touched, and a mapping with the first byte is reported *)
Theorem c53_sound : forall p tg maps a size, tg_mappings tg = Ok maps -> maps <> [] -> 1 <= size ->
  exists hits, findMappings p (Some (FInt a)) (Some tg) (Some size) = Ok (report p a size hits) /\ (forall m, In m hits -> In m maps /\ touches a size m) /\
    (forall m, In m maps -> mp_start m <= a < mp_end m -> In m hits).
Proof. exact mappings_sound. Qed.
Print Assumptions c53_sound.
(** An unknown size counts as one byte, when no mapping ends at the address *)
Theorem c53_unknown_size_partial : forall p tg maps a, tg_mappings tg = Ok maps -> maps <> [] -> Forall (fun m => mp_start m < mp_end m /\ mp_end m <> a) maps ->
  findMappings p (Some (FInt a)) (Some tg) None = Ok (report p a 1 (filter (overlap a 1) maps)).
Proof. exact mappings_unknown. Qed.
Print Assumptions c53_unknown_size_partial.
(** Whatever the size (0 if it is unknown): reported are exactly the mappings with the first or the last byte, in order. *)
Theorem c53_ends_partial : forall p tg maps a size, tg_mappings tg = Ok maps -> maps <> [] ->
  exists f, findMappings p (Some (FInt a)) (Some tg) size = Ok (report p a (match size with Some s => s | None => 0 end) (filter f maps)) /\
    forall m, f m = true <-> mp_start m <= a < mp_end m \/ mp_start m <= a + match size with Some s => s | None => 0 end - 1 < mp_end m.
Proof. exact mappings_ends. Qed.
Print Assumptions c53_ends_partial.
Example c53_ends_partial_ex : exists m, mp_start m <= 4194300 + 8 - 1 < mp_end m /\ ~ mp_start m <= 4194300 < mp_end m.
Proof. exists code_map. cbn. lia. Qed.
Theorem c53_several : forall p tg maps l size, tg_mappings tg = Ok maps -> maps <> [] ->
  findMappings p (Some (FList l)) (Some tg) size = Ok (flat_map (fun a => match findMappings p (Some (FInt a)) (Some tg) size with Ok t => t | Err _ => [] end) l).
Proof. exact mappings_several. Qed.
Print Assumptions c53_several.
(** The mappings of the report of a fault *)
Theorem c53_fault_partial : forall p eval tg s r acc i maps, running_linux p = true -> tg_siginfo tg = Ok s -> memoryFault p eval tg = Ok r -> r_kind r = InvalidAccess acc -> r_instr r = Some i ->
  (forall o, ~ string_form o (in_text i)) -> tg_mappings tg = Ok maps -> maps <> [] -> Forall (fun m => mp_start m < mp_end m /\ mp_end m <> si_addr s) maps ->
  r_mappings r = report p (si_addr s) 1 (filter (overlap (si_addr s) 1) maps).
Proof. exact fault_mappings. Qed.
Print Assumptions c53_fault_partial.
Example c53_fault_partial_ex : exists r, report_of "MOV [RAX], RBX" 0 = Ok r /\ r_kind r = InvalidAccess WriteAccess /\ r_name r = T "invalid_write-null" /\ r_text r = T "Invalid write to NULL" /\
  r_mappings r = [T "NULL is not mapped in memory"] /\ r_registers r = [(T "rax", 0); (T "rbx", 4096)].
Proof. exact write_ex. Qed.
(** The byte after the end of a mapping is reported as part of it *)
Theorem c53_end_refuted : exists maps a r, Forall (fun m => ~ touches a 1 m) maps /\
  memoryFault linux_x86_64 no_eval (Target 42 some_regs (Ok 4194304) (Ok 140737488355000) (Ok maps) (Some (Ok (instr "MOV [RAX], RBX"))) (Ok (SigInfo a 0 0 0))) = Ok r /\
  r_mappings r = [T "0x0000000000401000 is part of 0x0000000000400000-0x0000000000401000 => /bin/prog (r-xp)"].
Proof. exact mapping_end_wrong. Qed.
Print Assumptions c53_end_refuted.
(** A mapping strictly inside of the accessed bytes is not reported *)
Theorem c53_inside_refuted : exists tg a size m, tg_mappings tg = Ok [m] /\ touches a size m /\ 1 <= size /\
  findMappings linux_x86_64 (Some (FInt a)) (Some tg) (Some size) = Ok (report linux_x86_64 a size []).
Proof. exact mapping_inside_wrong. Qed.
Print Assumptions c53_inside_refuted.

(** ** C83: the kind of the access *)
Theorem c83_write_partial : forall p eval tg s, running_linux p = true -> tg_siginfo tg = Ok s ->
  forall r acc i, memoryFault p eval tg = Ok r -> r_kind r = InvalidAccess acc -> r_instr r = Some i -> write_form (in_text i) -> acc = WriteAccess.
Proof. exact class_write. Qed.
Print Assumptions c83_write_partial.
Example c83_write_partial_ex : write_form (T "MOV DWORD [EDX+0x8], EAX") /\ ~ write_form (T "MOV EAX, [EDX]").
Proof.
  split.
  - exists (T "MOV"), [], (T "DWORD [EDX+0x8]"), (T " EAX"). split; [cbn; auto|]. split; [constructor|]. split; [|reflexivity]. exists (T "DWORD "), (T "EDX+0x8"). split; [right; exists (T "DWORD"); split; [cbn; auto|reflexivity]|].
    split; [discriminate|]. split; [cbn; intuition discriminate|reflexivity].
  - intros H. apply write_iff in H as (m & H). vm_compute in H. discriminate H.
Qed.
Theorem c83_read_partial : forall p eval tg s, running_linux p = true -> tg_siginfo tg = Ok s ->
  forall r acc i, memoryFault p eval tg = Ok r -> r_kind r = InvalidAccess acc -> r_instr r = Some i -> ~ write_form (in_text i) -> read_form (in_text i) \/ load_form (in_text i) -> acc = ReadAccess.
Proof. exact class_read. Qed.
Print Assumptions c83_read_partial.
Example c83_read_partial_ex : read_form (T "CMP BYTE [EAX], 0x0") /\ load_form (T "MOV EAX, DWORD [EBX+0x4]").
Proof. split; [apply read_iff|apply load_iff]; eexists; vm_compute; reflexivity. Qed.
Theorem c83_other : forall p eval tg s, running_linux p = true -> tg_siginfo tg = Ok s ->
  forall r acc i, memoryFault p eval tg = Ok r -> r_kind r = InvalidAccess acc -> r_instr r = Some i -> ~ write_form (in_text i) -> ~ read_form (in_text i) -> ~ load_form (in_text i) ->
  (forall o, ~ string_form o (in_text i)) -> acc = AnyAccess.
Proof. exact class_none. Qed.
Print Assumptions c83_other.
Theorem c83_no_instruction : forall p eval tg s, running_linux p = true -> tg_siginfo tg = Ok s ->
  forall r acc, memoryFault p eval tg = Ok r -> r_kind r = InvalidAccess acc -> r_instr r = None -> acc = AnyAccess.
Proof. exact class_no_instr. Qed.
Print Assumptions c83_no_instruction.
(** MOVS: a write to the destination, a read from the source *)
Theorem c83_movs : forall p eval tg s, running_linux p = true -> tg_siginfo tg = Ok s ->
  forall r acc i x y, memoryFault p eval tg = Ok r -> r_kind r = InvalidAccess acc -> r_instr r = Some i -> ~ write_form (in_text i) -> ~ read_form (in_text i) -> ~ load_form (in_text i) ->
  string_form (T "MOVS") (in_text i) -> tg_getreg tg (source p) = Ok x -> tg_getreg tg (dest p) = Ok y ->
  acc = if si_addr s =? y then WriteAccess else if si_addr s =? x then ReadAccess else AnyAccess.
Proof. exact class_movs. Qed.
Print Assumptions c83_movs.
Example c83_movs_ex : exists r, report_of "REP MOVSD " 64 = Ok r /\ r_kind r = InvalidAccess WriteAccess /\ r_text r = T "Invalid write to 0x0000000000000040 (size=4 bytes)" /\ r_registers r = [(T "rsi", 4096); (T "rdi", 64)].
Proof. exact movs_ex. Qed.
(** SCAS: compared with the source register, although SCAS reads at the destination register *)
Theorem c83_scas_partial : forall p eval tg s, running_linux p = true -> tg_siginfo tg = Ok s ->
  forall r acc i x, memoryFault p eval tg = Ok r -> r_kind r = InvalidAccess acc -> r_instr r = Some i -> ~ write_form (in_text i) -> ~ read_form (in_text i) -> ~ load_form (in_text i) ->
  string_form (T "SCAS") (in_text i) -> tg_getreg tg (source p) = Ok x -> acc = if si_addr s =? x then ReadAccess else AnyAccess.
Proof. exact class_scas. Qed.
Print Assumptions c83_scas_partial.
Theorem c83_scas_refuted : exists r, report_of "REPNZ SCASB " 64 = Ok r /\ some_regs (T "rdi") = Ok 64 /\ r_kind r = InvalidAccess AnyAccess.
Proof. exact scas_wrong. Qed.
Print Assumptions c83_scas_refuted.
(** TEST does not write *)
Theorem c83_test_refuted : exists t acc r, In (T t, acc) intel_access /\ report_of t 0 = Ok r /\ r_kind r <> InvalidAccess acc.
Proof. exact access_wrong. Qed.
Print Assumptions c83_test_refuted.
(** ADD and INC do *)
Theorem c83_add_refuted : exists r r2, report_of "ADD [RAX], RBX" 0 = Ok r /\ r_kind r = InvalidAccess ReadAccess /\ report_of "INC QWORD [RAX]" 0 = Ok r2 /\ r_kind r2 = InvalidAccess AnyAccess.
Proof. exact access_wrong_add. Qed.
Print Assumptions c83_add_refuted.

(** ** C84: the size of the access: reported for string instructions only *)
Theorem c84_string : forall p eval tg s, running_linux p = true -> tg_siginfo tg = Ok s ->
  forall r acc i n, memoryFault p eval tg = Ok r -> r_kind r = InvalidAccess acc -> r_instr r = Some i -> ~ write_form (in_text i) -> ~ read_form (in_text i) -> ~ load_form (in_text i) ->
  string_size (in_text i) n -> r_text r = access_text p acc (Some (FInt (si_addr s))) ++ size_text n.
Proof. exact size_string. Qed.
Print Assumptions c84_string.
Example c84_string_ex : string_size (T "REP MOVSD ") 4 /\ exists r, report_of "REP MOVSD " 64 = Ok r /\ r_text r = T "Invalid write to 0x0000000000000040 (size=4 bytes)".
Proof. split; [exists (T "REP "), (T "MOVS"), "D"%char, (T " "); cbn; auto 10|]. destruct movs_ex as (r & H & _ & Ht & _). eauto. Qed.
Theorem c84_size_partial : forall p eval tg s, running_linux p = true -> tg_siginfo tg = Ok s ->
  forall r acc i, memoryFault p eval tg = Ok r -> r_kind r = InvalidAccess acc -> r_instr r = Some i ->
  (write_form (in_text i) \/ read_form (in_text i) \/ load_form (in_text i) \/ forall n, ~ string_size (in_text i) n) -> r_text r = access_text p acc (Some (FInt (si_addr s))).
Proof. exact size_else. Qed.
Print Assumptions c84_size_partial.
Theorem c84_unknown : forall p eval tg s, running_linux p = true -> tg_siginfo tg = Ok s ->
  forall r acc, memoryFault p eval tg = Ok r -> r_kind r = InvalidAccess acc -> r_instr r = None -> r_text r = access_text p acc (Some (FInt (si_addr s))).
Proof. exact size_no_instr. Qed.
Print Assumptions c84_unknown.
Theorem c84_size_refuted : exists t size r, In (T t, size) intel_size /\ report_of t 0 = Ok r /\ r_text r = T "Invalid write to NULL" /\ r_text r <> T "Invalid write to NULL (size=" ++ str_int size ++ T " bytes)".
Proof. exact size_wrong. Qed.
Print Assumptions c84_size_refuted.

(** ** C85: the registers *)
Theorem c85_values : forall p eval tg s, running_linux p = true -> tg_siginfo tg = Ok s ->
  forall r acc n v, memoryFault p eval tg = Ok r -> r_kind r = InvalidAccess acc -> In (n, v) (r_registers r) -> tg_getreg tg n = Ok v.
Proof. exact named_registers. Qed.
Print Assumptions c85_values.
Theorem c85_shown_partial : forall p eval tg s, running_linux p = true -> tg_siginfo tg = Ok s ->
  forall r acc i ops w v, memoryFault p eval tg = Ok r -> r_kind r = InvalidAccess acc -> r_instr r = Some i -> intel p -> operands (in_text i) ops -> word_of ops w -> known_register p w ->
  tg_getreg tg (lower w) = Ok v -> In (lower w, v) (r_registers r).
Proof. exact shown_registers. Qed.
Print Assumptions c85_shown_partial.
Example c85_shown_partial_ex : exists r, report_of "MOV [RAX], RBX" 0 = Ok r /\ r_kind r = InvalidAccess WriteAccess /\ r_name r = T "invalid_write-null" /\ r_text r = T "Invalid write to NULL" /\
  r_mappings r = [T "NULL is not mapped in memory"] /\ r_registers r = [(T "rax", 0); (T "rbx", 4096)].
Proof. exact write_ex. Qed.
(** r8 to r15 are never shown *)
Theorem c85_numbered : forall p w, In w numbered_registers -> ~ known_register p w.
Proof. exact numbered_unknown. Qed.
Print Assumptions c85_numbered.
Theorem c85_numbered_refuted : exists i r, tg_instr (fault "MOV RBX, [R8]" 77) = Some (Ok i) /\ operands (in_text i) (T "RBX, [R8]") /\ word_of (T "RBX, [R8]") (T "R8") /\ In (T "R8") numbered_registers /\
  report_of "MOV RBX, [R8]" 77 = Ok r /\ some_regs (T "r8") = Ok 77 /\ r_registers r = [(T "rbx", 4096)].
Proof. exact numbered_missing. Qed.
Print Assumptions c85_numbered_refuted.

(** ** C86: division by zero *)
Theorem c86_division_partial : forall p tg i, tg_instr tg = Some (Ok i) -> (forall n, only_ptrace_errors (tg_getreg tg n)) ->
  (div_form (in_text i) -> exists r, mathError p tg = Ok (Some r) /\ r_kind r = DivisionByZero /\ r_text r = T "Division by zero" /\ r_instr r = Some i) /\
  (~ div_form (in_text i) -> mathError p tg = Ok None).
Proof. exact math_iff. Qed.
Print Assumptions c86_division_partial.
Example c86_division_partial_ex : div_form (T "IDIV EBX") /\ ~ div_form (T "FDIV ST0, ST1").
Proof. split; [exists (T "EBX"); right; reflexivity|]. intros (rest & [E|E]); discriminate E. Qed.
Theorem c86_unknown : forall p tg, tg_instr tg = None \/ (exists e, tg_instr tg = Some (Err e) /\ is_ptrace_error e = true) -> mathError p tg = Ok None.
Proof. exact math_none. Qed.
Print Assumptions c86_unknown.
(** Another error of the disassembler is not hidden. *)
Theorem c86_error : forall p eval tg e s, tg_instr tg = Some (Err e) -> is_ptrace_error e = false ->
  mathError p tg = Err e /\ (running_linux p = true -> tg_siginfo tg = Ok s -> memoryFault p eval tg = Err e).
Proof. exact instruction_errors. Qed.
Print Assumptions c86_error.
Example c86_error_ex : is_ptrace_error EValueError = false /\
  mathError linux_x86_64 (Target 42 (fun _ => Ok 0) (Ok 4194304) (Ok 0) (Ok []) (Some (Err EValueError)) (Ok (SigInfo 4194304 0 0 0))) = Err EValueError.
Proof. split; reflexivity. Qed.
(** The divisor is not looked at: the overflow of a division is reported as a division by zero *)
Theorem c86_overflow_refuted : exists r, mathError linux_x86_64 (Target 42 (fun n => if text_eqb n (T "ebx") then Ok 4294967295 else Ok 0) (Ok 4194304) (Ok 0) (Ok []) (Some (Ok (instr "IDIV EBX"))) (Ok (SigInfo 4194304 0 0 0))) = Ok (Some r) /\
  r_text r = T "Division by zero" /\ r_registers r = [(T "ebx", 4294967295)].
Proof. exact overflow_wrong. Qed.
Print Assumptions c86_overflow_refuted.

(** ** C87: the end of a child *)
Theorem c87_child_partial : forall p ns tg s e, running_linux p = true -> tg_siginfo tg = Ok s -> si_status s = chld_status e -> match e with ChildExited c => c = 0 | ChildKilled n => 1 <= n < 127 end ->
  exists r, childExit p ns tg = Ok r /\ r_text r = chld_text ns (si_pid s) e.
Proof. exact child_right. Qed.
Print Assumptions c87_child_partial.
Example c87_child_partial_ex : chld_text linux_signals 99 (ChildKilled 9) = T "Child process 99 killed by signal SIGKILL".
Proof. vm_compute. reflexivity. Qed.
(** A child that exits with a code other than 0 (and below 127) is reported as killed by the signal of that number *)
Theorem c87_exit_code : forall p ns tg s c, running_linux p = true -> tg_siginfo tg = Ok s -> si_status s = c -> 1 <= c < 127 ->
  exists r, childExit p ns tg = Ok r /\ r_text r = chld_text ns (si_pid s) (ChildKilled c).
Proof. exact child_wrong. Qed.
Print Assumptions c87_exit_code.
Theorem c87_exit_code_refuted : exists tg r, tg_siginfo tg = Ok (SigInfo 0 99 1000 (chld_status (ChildExited 1))) /\ childExit linux_x86_64 linux_signals tg = Ok r /\ r_text r = T "Child process 99 killed by signal SIGHUP".
Proof. exact exit_wrong. Qed.
Print Assumptions c87_exit_code_refuted.

(** ** C88: the displayed lines *)
Theorem c88_lines : forall p ns eval tg n lines, display p ns eval tg n = Ok lines ->
  exists r, analyze p ns eval tg n = Ok r /\
    lines = [repeat "-"%char 60; T "PID: " ++ str_int (tg_pid tg); T "Signal: " ++ signalName ns n] ++
            match r with
            | None => []
            | Some r => [r_text r] ++ match r_kind r with ChildExit _ _ (Some uid) => [T "Signal sent by user " ++ str_int uid] | _ => [] end ++
                        match r_instr r with Some i => [T "- instruction: " ++ in_text i] | None => [] end ++
                        map (fun m => T "- mapping: " ++ m) (r_mappings r) ++ map (fun kv => T "- register " ++ fst kv ++ T "=" ++ formatWordHex p (snd kv)) (r_registers r)
            end ++ [repeat "-"%char 60].
Proof. exact display_form. Qed.
Print Assumptions c88_lines.
Example c88_lines_ex : display linux_x86_64 linux_signals no_eval (fault "MOV [RAX], RBX" 0) 11 =
  Ok (map T ["------------------------------------------------------------"; "PID: 42"; "Signal: SIGSEGV"; "Invalid write to NULL"; "- instruction: MOV [RAX], RBX"; "- mapping: NULL is not mapped in memory";
     "- register rax=0x0000000000000000"; "- register rbx=0x0000000000001000"; "------------------------------------------------------------"]%string).
Proof. vm_compute. reflexivity. Qed.

(** ** C109: where the kernel does not tell the address of the fault (BSD) *)
Theorem c109_address : forall p eval tg i acc expr maps r, running_linux p = false -> tg_instr tg = Some (Ok i) -> dereferences acc expr (in_text i) -> tg_mappings tg = Ok maps -> Forall (fun m => ~ is_stack m) maps ->
  memoryFault p eval tg = Ok r ->
  r_kind r = InvalidAccess acc /\ exists address, r_name r = access_title p acc address /\ r_text r = access_text p acc address /\
  match parseExpression eval (tg_getreg tg) expr with
  | Ok (VInt z) => address = Some (FInt z)
  | Ok (VBool b) => address = Some (FInt (if b then 1 else 0))
  | Ok VTuple => address = Some (FList [])
  | Err e => e = EValueError /\ address = None
  end.
Proof. exact placed. Qed.
Print Assumptions c109_address.
Example c109_address_ex : dereferences WriteAccess (T "RBX+0x10") (T "MOV DWORD [RBX+0x10], EAX") /\
  (exists r, memoryFault freebsd_x86_64 py_eval (bsd_fault "MOV DWORD [RBX+0x10], EAX") = Ok r /\ r_text r = T "Invalid write to 0x0000000000001010" /\ r_name r = T "invalid_write-0x0000000000001010") /\
  (exists r, memoryFault freebsd_x86_64 py_eval (bsd_fault "MOV EAX, [FS:0x28]") = Ok r /\ r_text r = T "Invalid read").
Proof.
  split; [|split; eexists; repeat split; vm_compute; reflexivity].
  exists (T "MOV"), [], (T "DWORD [RBX+0x10]"), (T " EAX"). split; [cbn; auto|]. split; [constructor|]. split; [|reflexivity]. exists (T "DWORD "). split; [right; exists (T "DWORD"); split; [cbn; auto|reflexivity]|].
  split; [discriminate|]. split; [cbn; intuition discriminate|reflexivity].
Qed.
Theorem c109_error : forall p eval tg i acc expr maps e, running_linux p = false -> tg_instr tg = Some (Ok i) -> dereferences acc expr (in_text i) -> tg_mappings tg = Ok maps -> Forall (fun m => ~ is_stack m) maps ->
  parseExpression eval (tg_getreg tg) expr = Err e -> e <> EValueError -> memoryFault p eval tg = Err e.
Proof. exact placed_error. Qed.
Print Assumptions c109_error.
Theorem c109_unknown : forall p eval tg maps, running_linux p = false -> tg_instr tg = None -> tg_mappings tg = Ok maps -> Forall (fun m => ~ is_stack m) maps ->
  memoryFault p eval tg = Ok (Reason (InvalidAccess AnyAccess) (T "invalid_mem_access") (T "Invalid memory access") None [] []).
Proof. exact unplaced. Qed.
Print Assumptions c109_unknown.
(** Any number of addresses *)
Theorem c109_words : forall p acc address size instr regs process r, InvalidMemoryAccess p acc address size instr regs process = Ok r ->
  r_kind r = InvalidAccess acc /\ r_name r = access_title p acc address /\
  r_text r = access_text p acc address ++ match size with Some z => if z =? 0 then [] else size_text z | None => [] end.
Proof. exact access_said. Qed.
Print Assumptions c109_words.
