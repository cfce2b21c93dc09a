(** * LiveSpec: programs that get signals, with and without the debugger. *)
From Coq Require Import ZArith List Ascii Bool.
From Verif Require Import PyBase Platform CallModel MemModel MemSpec StructModel RegModel BreakModel BreakSpec SessionModel SessionSpec LinkSpec.
From Verif Require SigModel DbgModel GdbModel EffectSpec.
Import ListNotations.
Open Scope Z_scope.

(** ** Signals
    [arises s k r]: the signal [s] may be sent to the program in this state, by its next instruction or by another process.
    [delivers s]: what the kernel does to the program when it delivers [s], the start of a handler for example. *)
Record signals : Type := Signals { arises : Z -> kmem -> list byte -> Prop; delivers : Z -> program }.
Definition comes (G : signals) (s : Z) (k : kmem) (r : list byte) : Prop := s <> 0 /\ s <> DbgModel.SIGTRAP /\ arises G s k r.
(** The program without debugger: instructions, and signals that are delivered where they arise *)
Inductive lives (exec : program) (G : signals) : kmem -> list byte -> list Z -> kmem -> list byte -> Prop :=
| LHere : forall k r, lives exec G k r [] k r
| LInstr : forall k r k1 r1 l k2 r2, exec k r k1 r1 -> lives exec G k1 r1 l k2 r2 -> lives exec G k r l k2 r2
| LSignal : forall k r s k1 r1 l k2 r2, comes G s k r -> delivers G s k r k1 r1 -> lives exec G k1 r1 l k2 r2 -> lives exec G k r (s :: l) k2 r2.

(** ** The traced process of LinkSpec, with signals *)
(** It runs, and meets no INT 3. *)
Inductive ran (p : platform) (exec : program) : kmem -> list byte -> kmem -> list byte -> Prop :=
| NHere : forall k r, ran p exec k r k r
| NRun : forall k r k1 r1 k2 r2, ~ at_trap p k r -> exec k r k1 r1 -> ran p exec k1 r1 k2 r2 -> ran p exec k r k2 r2.
Section Signals.
  Context (E : penv) (K : rkernel) (exec : program) (G : signals).
  Local Notation mem st := (s_mem (b_mem st)).
  Local Notation regs st := (r_regs (b_regs st)).
  Definition signal (s : Z) : DbgModel.event := DbgModel.ProcessSignal s O.
  (** Only waiting for a process raises events.  A signal stops the process; it is delivered when the process is continued with it. *)
  Inductive answered_s : world -> GdbModel.gcall -> GdbModel.ans -> world -> Prop :=
  | SPlain : forall w c a w', answered E K exec w c a w' -> (forall ev, a <> GdbModel.ARaise (DbgModel.XEvent ev)) -> answered_s w c a w'
  | SDeliver : forall st s k r, s <> 0 -> delivers G s (mem st) (regs st) k r ->
      answered_s (World st Stopped) (GdbModel.CCont O s) GdbModel.AUnit (World (stopped_with st k r) Running)
  | SSignal : forall st s k r, ran (e_p E) exec (mem st) (regs st) k r -> comes G s k r ->
      answered_s (World st Running) GdbModel.CWaitSignals (GdbModel.AEvent (signal s)) (World (stopped_with st k r) Stopped)
  | SSignalStep : forall st s k r, ran (e_p E) exec (mem st) (regs st) k r -> comes G s k r ->
      answered_s (World st Running) (GdbModel.CWait O DbgModel.SIGTRAP) (GdbModel.ARaise (DbgModel.XEvent (signal s))) (World (stopped_with st k r) Stopped)
  | SSignalStepi : forall st s, comes G s (mem st) (regs st) ->
      answered_s (World st Stepping) (GdbModel.CWait O DbgModel.SIGTRAP) (GdbModel.ARaise (DbgModel.XEvent (signal s))) (World st Stopped).
  Inductive explained_s : world -> EffectSpec.history -> world -> Prop :=
  | JNil : forall w, explained_s w [] w
  | JCons : forall w h w1 c a w2, explained_s w h w1 -> answered_s w1 c a w2 -> explained_s w ((c, a) :: h) w2.
  (** The signals the kernel reported to the debugger, and those it was told to deliver, the first one first *)
  Definition reported (h : EffectSpec.history) : list Z :=
    flat_map (fun x => match x with
                       | (GdbModel.CWaitSignals, GdbModel.AEvent (DbgModel.ProcessSignal s _)) => if s =? DbgModel.SIGTRAP then [] else [s]
                       | (GdbModel.CWait _ _, GdbModel.ARaise (DbgModel.XEvent (DbgModel.ProcessSignal s _))) => [s]
                       | _ => []
                       end) (rev h).
  Definition delivered (h : EffectSpec.history) : list Z :=
    flat_map (fun x => match x with (GdbModel.CCont _ s, GdbModel.AUnit) => if s =? 0 then [] else [s] | _ => [] end) (rev h).

  (** ** Sessions of the debugger
      As in LinkSpec, but a command may also be interrupted by a signal, which is handled as in run_line (gdb.py 815-847). *)
  Section Typed.
    Context (ns : SigModel.namespace) (dis : bool) (eval : text -> res PyEval.pyval) (env : EffectSpec.history -> GdbModel.gcall -> GdbModel.ans).
    Definition ends (k : GdbModel.command) (g g1 : GdbModel.gstate) : Prop :=
      (exists o, GdbModel.run (e_p E) ns dis eval env k g = (g1, DbgModel.Ret o)) \/
      (exists g0 s id, let x := DbgModel.XEvent (DbgModel.ProcessSignal s id) in
         GdbModel.run (e_p E) ns dis eval env k g = (g0, DbgModel.Raise x) /\ GdbModel.handle env x g0 = (g1, DbgModel.Ret tt)).
    Inductive typed_s : GdbModel.gstate -> world -> list GdbModel.command -> list command -> GdbModel.gstate -> world -> Prop :=
    | ZNil : forall g w, typed_s g w [] [] g w
    | ZCons : forall g w k ks l l' g1 w1 g2 w2 h, plain_command k -> ends k g g1 -> GdbModel.g_hist g1 = h ++ GdbModel.g_hist g ->
        explained_s w h w1 -> means (reads_at E eval env g) k h l -> typed_s g1 w1 ks l' g2 w2 -> typed_s g w (k :: ks) (l ++ l') g2 w2.
  End Typed.

  (** ** The ideal debugger
      It stops when a signal arises and delivers it when the program is continued.  [proceeds i o c i' o' d n]: [o] is the signal to
      deliver before the command [c] and [o'] the one after it, [d] are the signals delivered, [n] those reported. *)
  Inductive proceeds : ideal_state -> option Z -> command -> ideal_state -> option Z -> list Z -> list Z -> Prop :=
  | PPlain : forall i o c i', c <> Continue \/ o = None -> ideal E exec i c i' -> proceeds i o c i' o [] []
  | PContinue : forall k r l k1 r1 s, reaches (e_p E) exec l k r k1 r1 -> comes G s k1 r1 ->
      proceeds (Ideal k r l) None Continue (Ideal k1 r1 l) (Some s) [] [s]
  | PStep : forall k r l a size k1 r1 s, reaches (e_p E) exec (l ++ [(a, break_size E size)]) k r k1 r1 -> comes G s k1 r1 ->
      proceeds (Ideal k r l) None (Step a size) (Ideal k1 r1 l) (Some s) [] [s]
  | PStepi : forall k r l s, comes G s k r -> proceeds (Ideal k r l) None Stepi (Ideal k r l) (Some s) [] [s]
  | PDeliver : forall k r l s k1 r1 i' o' d n, delivers G s k r k1 r1 -> proceeds (Ideal k1 r1 l) None Continue i' o' d n ->
      proceeds (Ideal k r l) (Some s) Continue i' o' (s :: d) n.
  Inductive proceed : ideal_state -> option Z -> list command -> ideal_state -> option Z -> list Z -> list Z -> Prop :=
  | PNil : forall i o, proceed i o [] i o [] []
  | PCons : forall i o c i1 o1 d n l i2 o2 d' n', proceeds i o c i1 o1 d n -> proceed i1 o1 l i2 o2 d' n' -> proceed i o (c :: l) i2 o2 (d ++ d') (n ++ n').

  (** ** What is expected of the program and of the user *)
  (** Which signals arise does not depend on the bytes of breakpoints. *)
  Definition heedless (l : ranges) (k : kmem) (r : list byte) : Prop := forall s k', beside l k k' -> arises G s k' r -> arises G s k r.
  Definition undisturbed (k : kmem) (r : list byte) (l : ranges) : Prop :=
    quiet E exec k r l /\ forall k1 r1, reaches (e_p E) exec l k r k1 r1 -> heedless l k1 r1.
  (** The delivery of a signal neither depends on the bytes of breakpoints nor changes them, and keeps their words mapped. *)
  Definition smooth (deliver : program) (l : ranges) (k : kmem) (r : list byte) : Prop :=
    unaware deliver l k r /\
    forall k1 r1, deliver k r k1 r1 -> zlen r1 = zlen r /\ forall a n, In (a, n) l ->
      (words_mapped (e_p E) k a n -> words_mapped (e_p E) k1 a n) /\ (words_pokable (e_p E) k a n -> words_pokable (e_p E) k1 a n).
  (** The user does not step while there is a signal to deliver. *)
  Fixpoint orderly (i : ideal_state) (o : option Z) (cs : list command) : Prop :=
    match cs with
    | [] => True
    | c :: cs =>
        let '(Ideal k r l) := i in
        match c with
        | Break _ _ | Delete _ => tame E exec i [c]
        | Continue =>
            match o with
            | None => undisturbed k r l
            | Some s => smooth (delivers G s) l k r /\ forall k1 r1, delivers G s k r k1 r1 -> undisturbed k1 r1 l
            end
        | Step a size => o = None /\ tame E exec i [c] /\ undisturbed k r (l ++ [(a, break_size E size)])
        | Stepi => o = None /\ tame E exec i [c] /\ heedless l k r
        end /\ forall i' o' d n, proceeds i o c i' o' d n -> orderly i' o' cs
    end.
End Signals.
(** The signal to deliver, as a list and as the dictionary of gdb.py *)
Definition pending (o : option Z) : list Z := match o with Some s => [s] | None => [] end.
Definition last_signal (o : option Z) : list (nat * Z) := match o with Some s => [(O, s)] | None => [] end.
