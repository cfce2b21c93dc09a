(** * FateSpec: the end of a debugged program. *)
From Coq Require Import ZArith List Ascii Bool.
From Verif Require Import PyBase Platform CallModel MemModel MemSpec StructModel RegModel BreakModel BreakSpec SessionModel SessionSpec LinkSpec LiveSpec.
From Verif Require SigModel DbgModel GdbModel EffectSpec.
Import ListNotations.
Open Scope Z_scope.

(** ** How a program ends
    [exits k r how]: the program may end in this state, because its next instruction is the system call exit or because it gets SIGKILL.
    [kills s k r]: the delivery of the signal [s] ends the program. *)
Inductive how : Type := Exited (code : Z) | Killed (signum : Z).
Record fates : Type := Fates { exits : kmem -> list byte -> how -> Prop; kills : Z -> kmem -> list byte -> Prop }.
(** The program without debugger: [d] are the signals delivered to it. *)
Inductive finishes (exec : program) (G : signals) (F : fates) : kmem -> list byte -> list Z -> how -> Prop :=
| FExit : forall k r d k1 r1 e, lives exec G k r d k1 r1 -> exits F k1 r1 e -> finishes exec G F k r d e
| FSignal : forall k r d k1 r1 s, lives exec G k r d k1 r1 -> comes G s k1 r1 -> kills F s k1 r1 -> finishes exec G F k r (d ++ [s]) (Killed s).

(** ** The traced process
    It is alive, or will die of a signal that is being delivered, or has ended. *)
Inductive fworld : Type := Alive (w : world) | Dying (signum : Z) | Gone.
Definition exit_event (e : how) : DbgModel.event :=
  match e with
  | Exited code => DbgModel.ProcessExit O None (Some code)
  | Killed s => DbgModel.ProcessExit O (Some s) None
  end.
Definition waits (c : GdbModel.gcall) : Prop := c = GdbModel.CWaitSignals \/ c = GdbModel.CWait O DbgModel.SIGTRAP.
Section Fate.
  Context (E : penv) (K : rkernel) (exec : program) (G : signals) (F : fates).
  Local Notation mem st := (s_mem (b_mem st)).
  Local Notation regs st := (r_regs (b_regs st)).
  (** The end is an event for whoever waits.  The debugger has no process left then, and desinstall() leaves the process alone (breakpoint.py 51). *)
  Inductive answered_f : fworld -> GdbModel.gcall -> GdbModel.ans -> fworld -> Prop :=
  | FAlive : forall w c a w', answered_s E K exec G w c a w' -> answered_f (Alive w) c a (Alive w')
  | FFatal : forall st s, s <> 0 -> kills F s (mem st) (regs st) -> answered_f (Alive (World st Stopped)) (GdbModel.CCont O s) GdbModel.AUnit (Dying s)
  | FEnds : forall st k r e c, waits c -> ran (e_p E) exec (mem st) (regs st) k r -> exits F k r e ->
      answered_f (Alive (World st Running)) c (GdbModel.ARaise (DbgModel.XEvent (exit_event e))) Gone
  | FEndsStep : forall st e c, waits c -> exits F (mem st) (regs st) e ->
      answered_f (Alive (World st Stepping)) c (GdbModel.ARaise (DbgModel.XEvent (exit_event e))) Gone
  | FDies : forall s c, waits c -> answered_f (Dying s) c (GdbModel.ARaise (DbgModel.XEvent (exit_event (Killed s)))) Gone
  | FElse : forall c a, elsewhere c -> (forall ev, a <> GdbModel.ARaise (DbgModel.XEvent ev)) -> answered_f Gone c a Gone
  | FNone : answered_f Gone GdbModel.CProcesses (GdbModel.AProcs []) Gone
  | FRemove : forall bp, answered_f Gone (GdbModel.CDesinstall bp false) GdbModel.AUnit Gone.
  Inductive explained_f : fworld -> EffectSpec.history -> fworld -> Prop :=
  | QNil : forall w, explained_f w [] w
  | QCons : forall w h w1 c a w2, explained_f w h w1 -> answered_f w1 c a w2 -> explained_f w ((c, a) :: h) w2.

  (** ** The last command
      It is interrupted by the event that a process has ended, which is handled as in run_line (gdb.py 815-847). *)
  Section Last.
    Context (ns : SigModel.namespace) (dis : bool) (eval : text -> res PyEval.pyval) (env : EffectSpec.history -> GdbModel.gcall -> GdbModel.ans).
    Definition last_command (g : GdbModel.gstate) (st : bstate) (k : GdbModel.command) (l : list command) (id : nat) (s c : option Z) (g1 : GdbModel.gstate) : Prop :=
      exists g0 h, plain_command k /\ let x := DbgModel.XEvent (DbgModel.ProcessExit id s c) in
        GdbModel.run (e_p E) ns dis eval env k g = (g0, DbgModel.Raise x) /\ GdbModel.handle env x g0 = (g1, DbgModel.Ret tt) /\
        GdbModel.g_hist g1 = h ++ GdbModel.g_hist g /\ explained_f (Alive (World st Stopped)) h Gone /\ means (reads_at E eval env g) k h l.
  End Last.

  (** ** What is expected of the program: its end does not depend on the bytes of breakpoints. *)
  Definition fated (l : ranges) (k : kmem) (r : list byte) : Prop := forall e k', beside l k k' -> exits F k' r e -> exits F k r e.
  Definition finale (i : ideal_state) (o : option Z) (c : command) : Prop :=
    let '(Ideal k r l) := i in
    let on_the_way l k r := forall k1 r1, reaches (e_p E) exec l k r k1 r1 -> fated l k1 r1 in
    match c with
    | Break _ _ | Delete _ => True
    | Continue =>
        match o with
        | None => on_the_way l k r
        | Some s => (forall k', beside l k k' -> kills F s k' r -> kills F s k r) /\ forall k1 r1, delivers G s k r k1 r1 -> on_the_way l k1 r1
        end
    | Step a size => on_the_way (l ++ [(a, break_size E size)]) k r
    | Stepi => fated l k r
    end.
End Fate.
