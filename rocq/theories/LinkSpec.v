(** * LinkSpec: the commands of gdb.py typed at a process with breakpoints. *)
From Coq Require Import ZArith List Ascii Bool.
From Verif Require Import PyBase Platform CallModel MemModel StructModel RegModel BreakModel SessionModel SessionSpec.
From Verif Require SigModel DbgModel GdbModel EffectSpec.
Import ListNotations.
Open Scope Z_scope.

(** ** The traced process
    There is one process, number 0, with its memory, registers and breakpoints; it is stopped, continued or stepped. *)
Inductive mode : Type := Stopped | Running | Stepping.
Record world : Type := World { w_state : bstate; w_mode : mode }.
(** Reading memory and registers may open /proc/pid/mem and leave traces in the records of system calls, and that is all. *)
Definition seen (st st' : bstate) : Prop :=
  s_mem (b_mem st') = s_mem (b_mem st) /\ (s_file (b_mem st) <> FileClosed -> s_file (b_mem st') <> FileClosed) /\
  (s_fallback (b_mem st) = true -> s_fallback (b_mem st') = true) /\
  r_regs (b_regs st') = r_regs (b_regs st) /\ b_running st' = b_running st /\ b_objs st' = b_objs st /\ b_dict st' = b_dict st.
Definition answer_of {A} (f : A -> GdbModel.ans) (r : res A) : GdbModel.ans :=
  match r with Ok a => f a | Err e => GdbModel.ARaise (DbgModel.XErr e) end.
(** Calls that read the process *)
Definition reads_process (c : GdbModel.gcall) : Prop :=
  match c with
  | GdbModel.CReadBytes _ _ _ | GdbModel.CMappings _ | GdbModel.CInstrSize _ _ | GdbModel.CDisassemble _ | GdbModel.CDumpCode _ _ _ _
  | GdbModel.CDump _ _ | GdbModel.CXray _ | GdbModel.CBreakpoints _ => True
  | _ => False
  end.
(** Calls that have nothing to do with the process *)
Definition elsewhere (c : GdbModel.gcall) : Prop :=
  match c with
  | GdbModel.CLog _ | GdbModel.CTermWidth | GdbModel.CDisplay _ | GdbModel.CPid _ | GdbModel.COpen _ _ | GdbModel.CClear _ | GdbModel.CLookup _
  | GdbModel.CEvalBytes _ => True
  | _ => False
  end.
(** [answered E K exec w c a w']: in the world [w] the call [c] may have the answer [a] and leave the world [w']. *)
Inductive answered (E : penv) (K : rkernel) (exec : program) : world -> GdbModel.gcall -> GdbModel.ans -> world -> Prop :=
| WElse : forall w c a, elsewhere c -> answered E K exec w c a w
| WLook : forall st m c a st', reads_process c -> seen st st' -> answered E K exec (World st m) c a (World st' m)
| WProcesses : forall w, answered E K exec w GdbModel.CProcesses (GdbModel.AProcs [O]) w
| WCont : forall st, answered E K exec (World st Stopped) (GdbModel.CCont O 0) GdbModel.AUnit (World st Running)
| WStep : forall st, answered E K exec (World st Stopped) (GdbModel.CStep O) GdbModel.AUnit (World st Stepping)
| WTrap : forall st k r c, c = GdbModel.CWaitSignals \/ c = GdbModel.CWait O DbgModel.SIGTRAP ->
    continued (e_p E) exec (s_mem (b_mem st)) (r_regs (b_regs st)) k r ->
    answered E K exec (World st Running) c (GdbModel.AEvent (DbgModel.ProcessSignal DbgModel.SIGTRAP O)) (World (stopped_with st k r) Stopped)
| WStepped : forall st k r c, c = GdbModel.CWaitSignals \/ c = GdbModel.CWait O DbgModel.SIGTRAP ->
    single_stepped (e_p E) exec (s_mem (b_mem st)) (r_regs (b_regs st)) k r ->
    answered E K exec (World st Stepping) c (GdbModel.AEvent (DbgModel.ProcessSignal DbgModel.SIGTRAP O)) (World (stopped_with st k r) Stopped)
| WPointer : forall st rg r, getInstrPointer K (e_p E) (b_regs st) = (rg, r) ->
    answered E K exec (World st Stopped) (GdbModel.CGetIP O) (answer_of GdbModel.AInt r) (World (with_regs st rg) Stopped)
| WFind : forall st a, answered E K exec (World st Stopped) (GdbModel.CFindBreakpoint O a) (GdbModel.AObj (findBreakpoint a st)) (World st Stopped)
| WCreate : forall st a size st' r, createBreakpoint E a size st = (st', r) ->
    answered E K exec (World st Stopped) (GdbModel.CCreateBreakpoint O a size) (answer_of (fun id => GdbModel.AObj (Some id)) r) (World st' Stopped)
| WRemove : forall st id set_ip st' r, desinstall E K id set_ip st = (st', r) ->
    answered E K exec (World st Stopped) (GdbModel.CDesinstall id set_ip) (answer_of (fun _ => GdbModel.AUnit) r) (World st' Stopped).
(** The answers of a history (the latest first) are those of the process. *)
Inductive explained (E : penv) (K : rkernel) (exec : program) : world -> EffectSpec.history -> world -> Prop :=
| HNil : forall w, explained E K exec w [] w
| HCons : forall w h w1 c a w2, explained E K exec w h w1 -> answered E K exec w1 c a w2 -> explained E K exec w ((c, a) :: h) w2.

(** ** What the commands mean
    [means reads k h l]: the command [k] of the user, which made the calls [h], asks for the actions [l]; [reads t a] if the user
    wrote the address [a] as [t]. *)
Definition sets_breakpoint (x : GdbModel.gcall * GdbModel.ans) : Prop := exists a size, fst x = GdbModel.CCreateBreakpoint O a size.
Definition seeks_breakpoint (x : GdbModel.gcall * GdbModel.ans) : Prop := exists a, fst x = GdbModel.CFindBreakpoint O a.
Inductive means (reads : text -> Z -> Prop) : GdbModel.command -> EffectSpec.history -> list command -> Prop :=
| MBreak : forall t a size r h, reads t a -> In (GdbModel.CCreateBreakpoint O a size, r) h -> means reads (GdbModel.KBreak t) h [Break a size]
| MDelete : forall t a r h, reads t a -> In (GdbModel.CFindBreakpoint O a, r) h -> means reads (GdbModel.KDelete t) h [Delete a]
| MUntil : forall t a size r h, reads t a -> In (GdbModel.CCreateBreakpoint O a size, r) h -> means reads (GdbModel.KUntil t) h [Step a size]
| MStep : forall ip n size r h, In (GdbModel.CGetIP O, GdbModel.AInt ip) h -> In (GdbModel.CInstrSize O ip, GdbModel.AInt n) h ->
    In (GdbModel.CCreateBreakpoint O (ip + n) size, r) h -> means reads GdbModel.KStep h [Step (ip + n) size]
| MCont : forall h, means reads GdbModel.KCont h [Continue]
| MStepi : forall h, means reads GdbModel.KStepi h [Stepi]
(* the text is no integer, or the size of the instruction is unknown *)
| MNoAddress : forall t h, (forall a, ~ reads t a) -> Forall (fun x => ~ sets_breakpoint x /\ ~ seeks_breakpoint x) h ->
    forall k, k = GdbModel.KBreak t \/ k = GdbModel.KUntil t \/ k = GdbModel.KDelete t -> means reads k h []
| MNoStep : forall h, Forall (fun x => ~ sets_breakpoint x) h -> means reads GdbModel.KStep h []
| MLook : forall k h, EffectSpec.looking k = true -> means reads k h [].
(** The commands considered here *)
Definition plain_command (k : GdbModel.command) : Prop :=
  match k with
  | GdbModel.KBreak _ | GdbModel.KDelete _ | GdbModel.KUntil _ | GdbModel.KStep | GdbModel.KCont | GdbModel.KStepi => True
  | GdbModel.KSwitch _ => False
  | k => EffectSpec.looking k = true
  end.

(** ** Sessions *)
(** Actions with looks in between *)
Inductive watched (E : penv) (K : rkernel) (exec : program) : bstate -> list command -> bstate -> Prop :=
| VNil : forall st, watched E K exec st [] st
| VSeen : forall st st1 l st2, seen st st1 -> watched E K exec st1 l st2 -> watched E K exec st l st2
| VCons : forall st c st1 l st2, debugged E K exec st c st1 -> watched E K exec st1 l st2 -> watched E K exec st (c :: l) st2.
Section Typed.
  Context (E : penv) (K : rkernel) (exec : program).
  Context (ns : SigModel.namespace) (dis : bool) (eval : text -> res PyEval.pyval) (env : EffectSpec.history -> GdbModel.gcall -> GdbModel.ans).
  Definition reads_at (g : GdbModel.gstate) (t : text) (a : Z) : Prop := GdbModel.g_parseInteger (e_p E) eval env t g = (g, DbgModel.Ret a).
  (** [typed g w ks l g' w']: the user typed the commands [ks], none of which was interrupted by an exception, and asked for the actions [l]. *)
  Inductive typed : GdbModel.gstate -> world -> list GdbModel.command -> list command -> GdbModel.gstate -> world -> Prop :=
  | YNil : forall g w, typed g w [] [] g w
  | YCons : forall g w k ks l l' g1 w1 g2 w2 h o, plain_command k ->
      GdbModel.run (e_p E) ns dis eval env k g = (g1, DbgModel.Ret o) -> GdbModel.g_hist g1 = h ++ GdbModel.g_hist g ->
      explained E K exec w h w1 -> means (reads_at g) k h l -> typed g1 w1 ks l' g2 w2 -> typed g w (k :: ks) (l ++ l') g2 w2.
End Typed.
