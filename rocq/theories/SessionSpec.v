(** * SessionSpec: programs that run, with and without breakpoints. *)
From Coq Require Import ZArith List Ascii Bool.
From Verif Require Import PyBase Platform IntSpec CallModel MemModel MemSpec StructModel RegModel RegSpec BreakModel BreakSpec SessionModel.
Import ListNotations.
Open Scope Z_scope.

(** ** Programs
    The state of a program: its memory and its registers (the bytes of the structure of the kernel).  A program is a relation:
    [exec k r k1 r1] if an instruction (with what the kernel does in a system call) can lead from one state to the other. *)
Definition program : Type := kmem -> list byte -> kmem -> list byte -> Prop.
(** Where the instruction pointer is saved; the address it holds *)
Definition pc_field (p : platform) (o sz : Z) : Prop := exists name, arch_pc (p_cpu p) = Some name /\ In (name, (o, sz)) (layout 0 (register_fields p)).
Definition pc (p : platform) (r : list byte) (v : Z) : Prop :=
  exists o sz, pc_field p o sz /\ host_value (p_bigendian p) (firstn (Z.to_nat sz) (skipn (Z.to_nat o) r)) = v.
(** The CPU has gone over the byte of an INT 3: only the instruction pointer changes, by one. *)
Definition past_trap (p : platform) (r r' : list byte) : Prop :=
  exists o sz v, pc_field p o sz /\ pc p r v /\ pc p r' (v + 1) /\ zlen r' = zlen r /\
    firstn (Z.to_nat o) r' = firstn (Z.to_nat o) r /\ skipn (Z.to_nat (o + sz)) r' = skipn (Z.to_nat (o + sz)) r.
(** The process is continued: it runs until it reaches an INT 3, and is stopped behind it. *)
Definition at_trap (p : platform) (k : kmem) (r : list byte) : Prop := exists v, pc p r v /\ k_byte k v = Some (z2b 0xcc).
Inductive continued (p : platform) (exec : program) : kmem -> list byte -> kmem -> list byte -> Prop :=
| CTrap : forall k r r', at_trap p k r -> past_trap p r r' -> continued p exec k r k r'
| CRun : forall k r k1 r1 k' r', ~ at_trap p k r -> exec k r k1 r1 -> continued p exec k1 r1 k' r' -> continued p exec k r k' r'.
(** One step of the CPU (PTRACE_SINGLESTEP) *)
Inductive single_stepped (p : platform) (exec : program) : kmem -> list byte -> kmem -> list byte -> Prop :=
| OneTrap : forall k r r', at_trap p k r -> past_trap p r r' -> single_stepped p exec k r k r'
| OneRun : forall k r k1 r1, ~ at_trap p k r -> exec k r k1 r1 -> single_stepped p exec k r k1 r1.

(** ** The ideal debugger: it changes nothing in the program *)
Definition ranges : Type := list (Z * Z).
Definition in_range (an : Z * Z) (x : Z) : Prop := fst an <= x < fst an + snd an.
Definition covered (l : ranges) (x : Z) : Prop := exists an, In an l /\ in_range an x.
(** The program runs until it reaches a covered address, before it executes the instruction there. *)
Inductive reaches (p : platform) (exec : program) (l : ranges) : kmem -> list byte -> kmem -> list byte -> Prop :=
| RHere : forall k r, reaches p exec l k r k r
| RThere : forall k r k1 r1 k2 r2, (forall v, pc p r v -> ~ covered l v) -> exec k r k1 r1 -> reaches p exec l k1 r1 k2 r2 -> reaches p exec l k r k2 r2.
Inductive command : Type := Break (address : Z) (size : option Z) | Delete (address : Z) | Continue
| Step (address : Z) (size : option Z) (* run until [address]: the commands step and until *)
| Stepi.
Record ideal_state : Type := Ideal { i_mem : kmem; i_regs : list byte; i_breakpoints : ranges }.
Definition without (an : Z * Z) (l : ranges) : ranges := filter (fun x => negb ((fst x =? fst an) && (snd x =? snd an))) l.
Inductive ideal (E : penv) (exec : program) : ideal_state -> command -> ideal_state -> Prop :=
| IBreak : forall k r l a size, ~ covered l a -> ideal E exec (Ideal k r l) (Break a size) (Ideal k r (l ++ [(a, break_size E size)]))
| IBreakAgain : forall k r l a size, covered l a -> ideal E exec (Ideal k r l) (Break a size) (Ideal k r l)
| IDelete : forall k r l a an, In an l -> in_range an a -> ideal E exec (Ideal k r l) (Delete a) (Ideal k r (without an l))
| IDeleteNone : forall k r l a, ~ covered l a -> ideal E exec (Ideal k r l) (Delete a) (Ideal k r l)
| IContinue : forall k r l k1 r1 an, reaches (e_p E) exec l k r k1 r1 -> In an l -> pc (e_p E) r1 (fst an) ->
    ideal E exec (Ideal k r l) Continue (Ideal k1 r1 (without an l))
| IStep : forall k r l a size k1 r1, reaches (e_p E) exec (l ++ [(a, break_size E size)]) k r k1 r1 -> pc (e_p E) r1 a ->
    ideal E exec (Ideal k r l) (Step a size) (Ideal k1 r1 l)
| IStepi : forall k r l k1 r1, exec k r k1 r1 -> ideal E exec (Ideal k r l) Stepi (Ideal k1 r1 l).
Inductive ideals (E : penv) (exec : program) : ideal_state -> list command -> ideal_state -> Prop :=
| INil : forall i, ideals E exec i [] i
| ICons : forall i c i1 l i2, ideal E exec i c i1 -> ideals E exec i1 l i2 -> ideals E exec i (c :: l) i2.

(** ** The debugger of the repository *)
Definition stopped_with (st : bstate) (k : kmem) (r : list byte) : bstate :=
  with_regs (with_mem st (set_mem (b_mem st) k)) (RState r (r_calls (b_regs st))).
Inductive debugged (E : penv) (K : rkernel) (exec : program) : bstate -> command -> bstate -> Prop :=
| DBreak : forall st a size, debugged E K exec st (Break a size) (fst (createBreakpoint E a size st))
| DDelete : forall st a, debugged E K exec st (Delete a) (fst (delete_breakpoint E K a st))
| DContinue : forall st k r, continued (e_p E) exec (s_mem (b_mem st)) (r_regs (b_regs st)) k r ->
    debugged E K exec st Continue (fst (hit_breakpoint E K (stopped_with st k r)))
| DStep : forall st a size k r, let st1 := fst (createBreakpoint E a size st) in
    continued (e_p E) exec (s_mem (b_mem st1)) (r_regs (b_regs st1)) k r ->
    debugged E K exec st (Step a size) (fst (step_over E K a size (fun st => stopped_with st k r) st))
| DStepi : forall st k r, single_stepped (e_p E) exec (s_mem (b_mem st)) (r_regs (b_regs st)) k r -> debugged E K exec st Stepi (stopped_with st k r).
Inductive session (E : penv) (K : rkernel) (exec : program) : bstate -> list command -> bstate -> Prop :=
| SNil : forall st, session E K exec st [] st
| SCons : forall st c st1 l st2, debugged E K exec st c st1 -> session E K exec st1 l st2 -> session E K exec st (c :: l) st2.

(** ** What is expected of the program *)
(** Two memories that differ in the bytes of [l] only *)
Definition beside (l : ranges) (k k' : kmem) : Prop :=
  forall x, (~ covered l x -> k_byte k' x = k_byte k x) /\ (covered l x -> k_byte k x <> None /\ k_byte k' x <> None) /\ k_pokable k' x = k_pokable k x.
Definition agree (l : ranges) (k k' : kmem) : Prop := forall x, covered l x -> k_byte k' x = k_byte k x.
(** The next instruction neither depends on the bytes of [l] nor changes them. *)
Definition unaware (exec : program) (l : ranges) (k : kmem) (r : list byte) : Prop :=
  forall k', beside l k k' ->
    (forall k1 r1, exec k r k1 r1 -> exists k1', exec k' r k1' r1 /\ beside l k1 k1' /\ agree l k' k1') /\
    (forall k1' r1, exec k' r k1' r1 -> exists k1, exec k r k1 r1 /\ beside l k1 k1' /\ agree l k' k1' /\ agree l k k1).
(** The next instruction is no INT 3 of the program, does not look at the bytes of breakpoints and keeps their words mapped. *)
Definition calm (E : penv) (exec : program) (l : ranges) (k : kmem) (r : list byte) : Prop :=
  ~ at_trap (e_p E) k r /\ unaware exec l k r /\
  forall k1 r1, exec k r k1 r1 -> zlen r1 = zlen r /\ forall a n, In (a, n) l ->
    (words_mapped (e_p E) k a n -> words_mapped (e_p E) k1 a n) /\ (words_pokable (e_p E) k a n -> words_pokable (e_p E) k1 a n).
(** On its way to a breakpoint the program executes no INT 3 of its own, never looks at the bytes of breakpoints except to
    execute them, never jumps inside a breakpoint, and keeps their words mapped. *)
Definition quiet (E : penv) (exec : program) (k : kmem) (r : list byte) (l : ranges) : Prop :=
  forall k1 r1 v, reaches (e_p E) exec l k r k1 r1 -> pc (e_p E) r1 v ->
    (covered l v -> exists n, In (v, n) l) /\
    (~ covered l v -> calm E exec l k1 r1).
(** Breakpoints are set where the memory can be read and written, below the last byte of the address space, and do not overlap. *)
Definition settable (E : penv) (k : kmem) (l : ranges) (a n : Z) : Prop :=
  0 < n /\ in_space E a n /\ a + n < 2 ^ (8 * word_size (e_p E)) /\ a + n + word_size (e_p E) <= 2 ^ 63 /\ words_mapped (e_p E) k a n /\ words_pokable (e_p E) k a n /\
  forall b m, In (b, m) l -> in_range (b, m) a \/ apart a n b m.
Fixpoint tame (E : penv) (exec : program) (i : ideal_state) (l : list command) : Prop :=
  match l with
  | [] => True
  | c :: l =>
      match c with
      | Break a size => settable E (i_mem i) (i_breakpoints i) a (break_size E size)
      | Delete _ => True
      | Continue => quiet E exec (i_mem i) (i_regs i) (i_breakpoints i)
      | Step a size => (* only the breakpoint of the step is reached *)
          let l' := i_breakpoints i ++ [(a, break_size E size)] in
          settable E (i_mem i) (i_breakpoints i) a (break_size E size) /\ ~ covered (i_breakpoints i) a /\
          quiet E exec (i_mem i) (i_regs i) l' /\
          forall k r v, reaches (e_p E) exec l' (i_mem i) (i_regs i) k r -> pc (e_p E) r v -> covered l' v -> v = a
      | Stepi => (forall v, pc (e_p E) (i_regs i) v -> ~ covered (i_breakpoints i) v) /\ calm E exec (i_breakpoints i) (i_mem i) (i_regs i)
      end /\ forall i', ideal E exec i c i' -> tame E exec i' l
  end.
(** A process that was just started or attached, on Linux and an Intel CPU *)
Definition fresh_process (E : penv) (K : rkernel) (st : bstate) : Prop :=
  plain E /\ is_intel (p_cpu (e_p E)) = true /\ native (e_p E) /\ rk_get K = None /\ (forall r, rk_set K r = None) /\
  b_running st = true /\ no_breakpoints st /\ whole (e_p E) (r_regs (b_regs st)) /\ s_file (b_mem st) <> FileClosed.
(** The process of the debugger is in the state [i]: same registers, and the same memory but for the breakpoints, which keep
    the bytes they replaced. *)
Definition in_state (st : bstate) (i : ideal_state) : Prop :=
  r_regs (b_regs st) = i_regs i /\
  (forall x, ~ covered (i_breakpoints i) x -> k_byte (s_mem (b_mem st)) x = k_byte (i_mem i) x) /\
  (forall x, k_pokable (s_mem (b_mem st)) x = k_pokable (i_mem i) x) /\
  (forall a n, In (a, n) (i_breakpoints i) <-> exists bp, live st bp /\ bp_address bp = a /\ bp_size bp = n) /\
  (forall bp, live st bp -> zlen (bp_old bp) = bp_size bp /\ stored (i_mem i) (bp_address bp) (bp_old bp) /\
     stored (s_mem (b_mem st)) (bp_address bp) (repeat (z2b 0xcc) (Z.to_nat (bp_size bp)))).
(** The session leaves registers that no run of the program without the debugger has. *)
Definition strays (E : penv) (K : rkernel) (exec : program) (st : bstate) (l : list command) : Prop :=
  exists st', session E K exec st l st' /\ forall k, ~ reaches (e_p E) exec [] (s_mem (b_mem st)) (r_regs (b_regs st)) k (r_regs (b_regs st')).
