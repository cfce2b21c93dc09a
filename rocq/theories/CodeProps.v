(** * CodeProps: the instructions of the program are those shown (C124). *)
From Coq Require Import ZArith List Ascii String Bool.
From Verif Require Import PyBase Platform TraceModel TraceSpec CodeSpec CodeProofs CodeProofs2.
Import ListNotations.
Open Scope Z_scope.

(** ** C124 *)
(** disassembleOne() returns the instruction at the address if and only if it fits in MAX_INSTR_SIZE bytes (11, or 8 on i386)... *)
Theorem c124_one_partial : forall one decode p c read ip a i m, well_formed one -> disassembles one decode ->
  MAX_INSTR_SIZE p = Some m -> readable c read -> is_at one c a i ->
  (snd (disassembleOne (host_disassembler p decode) read ip (Some a)) = Ok i <-> in_size i <= m).
Proof. intros one decode p c read ip a i m Hw Hd. exact (one_iff one decode Hw Hd p c read ip a i m). Qed.
Print Assumptions c124_one_partial.
(** ... what it may return instead ends inside the instruction (gdb.py then puts the breakpoint of "step" there). *)
Theorem c124_inside_partial : forall one decode p c read ip a i m j, disassembles one decode ->
  MAX_INSTR_SIZE p = Some m -> readable c read -> is_at one c a i -> m < in_size i ->
  snd (disassembleOne (host_disassembler p decode) read ip (Some a)) = Ok j -> in_size j < in_size i.
Proof. intros one decode p c read ip a i m j Hd. exact (one_inside one decode Hd p c read ip a i m j). Qed.
Print Assumptions c124_inside_partial.
(** MOV QWORD [RSP+disp32], imm32 has 12 bytes; MOV DWORD [disp32], imm32 has 10. *)
Theorem c124_one_refuted : exists one decode c read i j, well_formed one /\ disassembles one decode /\ readable c read /\ is_at one c 4096 i /\ in_size i = 12 /\
  snd (disassembleOne (host_disassembler linux_x86_64 decode) read (Ok 4096) None) = Ok j /\ in_size j = 1.
Proof. exact one_wrong_64. Qed.
Print Assumptions c124_one_refuted.
Theorem c124_one_i386_refuted : exists one decode c read i j, well_formed one /\ disassembles one decode /\ readable c read /\ is_at one c 4096 i /\ in_size i = 10 /\
  snd (disassembleOne (host_disassembler linux_i386 decode) read (Ok 4096) None) = Ok j /\ in_size j = 1.
Proof. exact one_wrong_32. Qed.
Print Assumptions c124_one_i386_refuted.
Theorem c124_sizes : forall p, MAX_INSTR_SIZE p = match p_cpu p with X86_64 => Some 11 | I386 => Some 8 | _ => None end /\
  (MAX_INSTR_SIZE p = None -> forall decode read ip a, snd (disassembleOne (host_disassembler p decode) read ip a) = Err ENotImplementedError).
Proof. exact sizes. Qed.
Print Assumptions c124_sizes.
(** disassemble() of a number of instructions (10 if it is not given): exactly these, if together they are not longer than the window *)
Theorem c124_count_partial : forall one decode p c read ip a l nb m, well_formed one -> disassembles one decode ->
  MAX_INSTR_SIZE p = Some m -> readable c read -> are_at one c a l -> zlen l = match nb with Some n => n | None => 10 end -> l <> [] -> total l <= zlen l * m ->
  snd (disassemble (host_disassembler p decode) read ip (Some a) None nb) = Ok l.
Proof. intros one decode p c read ip a l nb m Hw Hd. exact (listed_count one decode Hw Hd p c read ip a l nb m). Qed.
Print Assumptions c124_count_partial.
(** ... of a range: the instructions in it; the one that crosses the end is never shown. *)
Theorem c124_range_partial : forall one decode p c read ip a l stop m, well_formed one -> disassembles one decode ->
  MAX_INSTR_SIZE p = Some m -> readable c read -> are_at one c a l -> a + total l <= stop + 1 -> a <= stop ->
  exists rest, snd (disassemble (host_disassembler p decode) read ip (Some a) (Some stop) None) = Ok (l ++ rest) /\
    forall i, is_at one c (a + total l) i -> stop + 1 < a + total l + in_size i -> hd_error rest <> Some i.
Proof. intros one decode p c read ip a l stop m Hw Hd. exact (listed_range one decode Hw Hd p c read ip a l stop m). Qed.
Print Assumptions c124_range_partial.
Theorem c124_range_refuted : exists one decode c read i, well_formed one /\ disassembles one decode /\ readable c read /\ is_at one c 4096 i /\ in_size i = 5 /\
  snd (disassemble (host_disassembler linux_x86_64 decode) read (Ok 0) (Some 4096) (Some 4097) None) = Ok [Instr 4096 1 (T "DB") []; Instr 4097 1 (T "DB") []].
Proof. exact range_wrong. Qed.
Print Assumptions c124_range_refuted.
(** The dump that hides the breakpoints ("where2") shows the instructions of the program, if none is too long, and if those at a
    breakpoint are not longer than the bytes it replaced. *)
Theorem c124_where_partial : forall one decode p c m read bps ip start stop l max, well_formed one -> disassembles one decode ->
  MAX_INSTR_SIZE p = Some max -> has_breakpoints c m bps -> readable m read ->
  listing one c (match stop with Some s => Some (Z.min (Z.max start s) (start + 1023)) | None => None end) 10 start l -> Forall (legible max bps) l ->
  snd (dumpCode_ p (host_disassembler p decode) read bps start stop ip true) = Ok tt /\
  lines_of (fst (dumpCode_ p (host_disassembler p decode) read bps start stop ip true)) =
    T "CODE:" :: map (fun i => instr_line p ip i ++ match dget Z.eqb (in_address i) bps with Some _ => T "     * BREAKPOINT *" | None => [] end) l.
Proof. intros one decode p c m read bps ip start stop l max Hw Hd. exact (dump_shown one decode Hw Hd p c m read bps ip start stop l max). Qed.
Print Assumptions c124_where_partial.
(** At a breakpoint: if and only if the instruction is not longer than the replaced bytes *)
Theorem c124_breakpoint_partial : forall one decode D c a i old, well_formed one -> disassembles one decode -> ds_decode D = decode -> is_at one c a i ->
  old = from c a (List.length old) -> (disassembleOne_code D old a = Ok i <-> in_size i <= zlen old).
Proof. intros one decode D c a i old Hw Hd. exact (breakpoint_iff one decode Hw Hd D c a i old). Qed.
Print Assumptions c124_breakpoint_partial.
Theorem c124_where_refuted : exists one decode c m bps read l, well_formed one /\ disassembles one decode /\ has_breakpoints c m bps /\ readable m read /\
  are_at one c 4096 l /\ map in_text l = [T "MOV EAX"; T "NOP"] /\
  lines_of (fst (dumpCode_ linux_x86_64 (host_disassembler linux_x86_64 decode) read bps 4096 (Some 4101) None true)) =
    [T "CODE:"; T "0x0000000000001000| DB ()     * BREAKPOINT *"; T "0x0000000000001001| DB ()"; T "0x0000000000001002| DB ()"; T "0x0000000000001003| DB ()"; T "0x0000000000001004| DB ()"].
Proof. exact where_wrong. Qed.
Print Assumptions c124_where_refuted.
Example c124_ex : well_formed four /\ disassembles four decode4 /\ has_breakpoints (program nops) broken_nop [(4096, [B 144])] /\ readable broken_nop (reader broken_nop) /\
  (let l := [Instr 4096 1 (T "NOP") []; Instr 4097 5 (T "MOV EAX") []; Instr 4102 1 (T "NOP") []] in
   listing four (program nops) (Some 4103) 10 4096 l /\ Forall (legible 11 [(4096, [B 144])]) l) /\
  is_at four (program moves) 4096 (Instr 4096 5 (T "MOV EAX") []).
Proof.
  exact (conj four_well (conj decode4_right (conj (proj1 where_right) (conj (reader_reads _) (conj (proj2 where_right) (ex_intro _ 5%nat eq_refl)))))).
Qed.
