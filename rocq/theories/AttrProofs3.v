(** * AttrProofs3: __del__ after a constructor that failed; attributes that are never assigned; runs that exist. *)
From Coq Require Import List Bool PArith.
From Verif Require Import AttrNames AttrModel AttrCode AttrSpec AttrCheck AttrProofs AttrContracts AttrProofs2.
Import ListNotations.
Open Scope attr_scope.

(** A body that starts with assignments can only fail after them *)
Lemma sets_first : forall flags table c l rest e e', run flags table c (block (map ASet l ++ rest)) e (Raise e') -> incl l e' /\ incl e e'.
Proof.
  intros flags table c l. induction l as [ | a l IH ]; intros rest e e' H.
  - split; [ apply incl_nil_l | exact (run_grows _ _ _ _ _ _ H _ eq_refl) ].
  - cbn [map app block fold_right] in H. fold (block (map ASet l ++ rest)) in H.
    inversion H as [ | s t x e1 o H1 H2 | s t x o H1 H2 | | | | | | | | | | | | | | | | | | | | | | | | | ]; subst.
    + inversion H1; subst. destruct (IH _ _ _ H2) as [I1 I2]. split.
      * intros y [ -> | Y ]; [ apply I2; left; reflexivity | exact (I1 _ Y) ].
      * intros y Y. apply I2. right. exact Y.
    + inversion H1.
Qed.
(** The attributes that PtraceProcess.__init__ assigns before it calls anything *)
Definition process_first : list attr :=
  ["debugger"; "breakpoints"; "pid"; "running"; "exited"; "parent"; "was_attached"; "is_attached"; "is_stopped"; "is_thread"].
Definition del_contracts : list contract :=
  [("PtraceProcess", "__del__", (process_first, process_first)); ("PtraceProcess", "detach", (process_first, process_first))].
Lemma del_checked : forall a b, check_class [("HAS_PROC", a); ("HAS_PTRACE_IO", b)] classes del_contracts "PtraceProcess" = true.
Proof. intros [] []; vm_compute; reflexivity. Qed.
Lemma process_init : forall flags, exists rest, method flags classes "PtraceProcess" "__init__" = Some (block (map ASet process_first ++ rest)).
Proof.
  intros flags. assert (D := decided_c _ _ _ _ (del_checked (flags "HAS_PROC") (flags "HAS_PTRACE_IO"))).
  rewrite (method_same _ _ _ _ _ (flags_agree flags) D). unfold flags_known.
  generalize (flags "HAS_PROC") (flags "HAS_PTRACE_IO"). intros [] []; eexists (_ :: _ :: _ :: _ :: []); vm_compute; reflexivity.
Qed.
Lemma process_del : forall flags e, failed flags classes "PtraceProcess" e -> finds flags classes "PtraceProcess" e "__del__".
Proof.
  intros flags e (body & M & R) b a Mb Rb. destruct (process_init flags) as (rest & Q). rewrite Q in M. apply (f_equal (fun o => match o with Some x => x | None => ASkip end)) in M. cbv beta iota in M. subst body.
  destruct (sets_first _ _ _ _ _ _ _ R) as [I _].
  refine (proj1 (contract_sound (flags_known flags) flags classes del_contracts "PtraceProcess" (flags_agree flags) (del_checked _ _) "__del__" b process_first process_first e (Missing a) eq_refl Mb I Rb) a eq_refl).
Qed.

(** The attributes that a statement assigns *)
Fixpoint assigns (s : stmt) : list attr :=
  match s with
  | ASet a => [a]
  | ASeq s t | AChoice s t | ATry s t | AFinally s t => assigns s ++ assigns t
  | AIf _ s t => assigns s ++ assigns t
  | ALoop s => assigns s
  | _ => []
  end.
Definition assigned_by (x : fexp * member) : list attr := match snd x with MMethod _ body => assigns body | MAttr _ => [] end.
Definition assigned (table : list class) : list attr := flat_map (fun k => flat_map assigned_by (c_members k)) table.
Lemma line_In : forall table n c k, In k (line table n c) -> In k table.
Proof.
  intros table n. induction n as [ | n IH ]; intros c k H; [ destruct H | ]. cbn in H. destruct c as [ c | ]; [ | destruct H ].
  destruct (find_class table c) as [ x | ] eqn:F; [ | destruct H ]. destruct H as [ -> | H ]; [ | exact (IH _ _ H) ].
  unfold find_class in F. apply find_some in F. tauto.
Qed.
Lemma method_assigned : forall flags table c m body, method flags table c m = Some body -> incl (assigns body) (assigned table).
Proof.
  intros flags table c m body H a Ha. destruct (find_member flags table c m body H) as (m' & I & _).
  unfold members in I. apply in_map_iff in I as ([e x] & E & I). cbn in E. subst x. apply filter_In in I as [I _].
  apply in_flat_map in I as (k & K & I). unfold assigned. apply in_flat_map. exists k. split; [ exact (line_In _ _ _ _ K) | ].
  apply in_flat_map. exists (e, MMethod m' body). split; [ exact I | exact Ha ].
Qed.
Lemma incl_app_l : forall (a b l : list attr), incl (a ++ b) l -> incl a l.
Proof. intros a b l H x X. apply H. apply in_or_app. left. exact X. Qed.
Lemma incl_app_r : forall (a b l : list attr), incl (a ++ b) l -> incl b l.
Proof. intros a b l H x X. apply H. apply in_or_app. right. exact X. Qed.
Lemma run_assigned : forall flags table c s e o, run flags table c s e o -> incl (assigns s) (assigned table) ->
  forall e', attrs_of o = Some e' -> incl e' (assigned table ++ e).
Proof.
  intros flags table c s e o H. induction H; intros S x X; cbn [assigns attrs_of] in *; try discriminate X; try (injection X as <-; apply incl_appr, incl_refl);
    try (apply IHrun; [ first [ exact S | exact (incl_app_l _ _ _ S) | exact (incl_app_r _ _ _ S) ] | exact X ]).
  - intros y Y. apply (IHrun2 (incl_app_r _ _ _ S) _ X) in Y. apply in_app_or in Y as [ Y | Y ]; [ apply in_or_app; left; exact Y | exact (IHrun1 (incl_app_l _ _ _ S) _ eq_refl _ Y) ].
  - injection X as <-. intros y [ -> | Y ]; apply in_or_app; [ left; apply S; left; reflexivity | right; exact Y ].
  - apply (IHrun (method_assigned _ _ _ _ _ H)). destruct o; cbn in *; exact X.
  - apply (IHrun (method_assigned _ _ _ _ _ H)). destruct o; cbn in *; exact X.
  - apply IHrun; [ | exact X ]. destruct (feval flags b); [ exact (incl_app_l _ _ _ S) | exact (incl_app_r _ _ _ S) ].
  - intros y Y. apply (IHrun2 S _ X) in Y. apply in_app_or in Y as [ Y | Y ]; [ apply in_or_app; left; exact Y | ].
    apply (IHrun1 S e1); [ destruct o1; cbn in *; congruence | exact Y ].
  - intros y Y. apply (IHrun2 (incl_app_r _ _ _ S) _ X) in Y. apply in_app_or in Y as [ Y | Y ]; [ apply in_or_app; left; exact Y | exact (IHrun1 (incl_app_l _ _ _ S) _ eq_refl _ Y) ].
  - assert (X' : x = e2) by (destruct o; cbn in X; congruence). subst x.
    intros y Y. apply (IHrun2 (incl_app_r _ _ _ S) _ eq_refl) in Y. apply in_app_or in Y as [ Y | Y ]; [ apply in_or_app; left; exact Y | exact (IHrun1 (incl_app_l _ _ _ S) _ H0 _ Y) ].
  - intros y Y. apply (IHrun2 (incl_app_r _ _ _ S) _ X) in Y. apply in_app_or in Y as [ Y | Y ]; [ apply in_or_app; left; exact Y | exact (IHrun1 (incl_app_l _ _ _ S) _ H0 _ Y) ].
Qed.
Lemma alive_assigned : forall flags table c e, alive flags table c e -> incl e (assigned table).
Proof.
  intros flags table c e H. induction H as [ e [ body o e' M R L | M ] | m body e o e' H IH M R X ].
  - assert (X : attrs_of o = Some e') by (destruct o; cbn in *; congruence).
    intros y Y. apply (run_assigned _ _ _ _ _ _ R (method_assigned _ _ _ _ _ M) _ X) in Y. rewrite app_nil_r in Y. exact Y.
  - apply incl_nil_l.
  - intros y Y. apply (run_assigned _ _ _ _ _ _ R (method_assigned _ _ _ _ _ M) _ X) in Y. apply in_app_or in Y as [ Y | Y ]; [ exact Y | exact (IH _ Y) ].
Qed.

(** A run, if there is one: left branches first, loops are not entered *)
Section Walk.
  Context (k : known) (table : list class) (c : attr).
  Definition walk_call (rec : stmt -> env -> option outcome) (s m : attr) (e : env) : option outcome :=
    if decided k table s then
      match method (to_flags k) table s m with
      | None => Some (Done e)
      | Some body => option_map leave (rec body e)
      end
    else None.
  Fixpoint step (rec : stmt -> env -> option outcome) (s : stmt) (e : env) : option outcome :=
    match s with
    | ASkip | AOther | ALoop _ => Some (Done e)
    | ASeq s t => match step rec s e with Some (Done e1) => step rec t e1 | r => r end
    | ARead a => if decided k table c then Some (if there (to_flags k) table c a e then Done e else Missing a) else None
    | ASet a => Some (Done (a :: e))
    | ACall m => walk_call rec c m e
    | ASuper p m => walk_call rec p m e
    | AIf b yes no => match keval k b with Some true => step rec yes e | Some false => step rec no e | None => None end
    | AChoice s t => match step rec s e with Some (Done e1) => Some (Done e1) | _ => step rec t e end
    | ATry s _ => match step rec s e with Some (Raise _) => None | r => r end
    | AFinally _ _ => None
    | AReturn => Some (Return e)
    | ARaise => Some (Raise e)
    | ABreak => Some (Break e)
    end.
  Fixpoint walk (n : nat) : stmt -> env -> option outcome := step (match n with O => fun _ _ => None | S n => walk n end).
  Context (flags : attr -> bool) (A : agrees k flags).
  Lemma step_sound : forall rec, (forall s e o, rec s e = Some o -> run flags table c s e o) -> forall s e o, step rec s e = Some o -> run flags table c s e o.
  Proof.
    intros rec R s. induction s as [ | s IHs t IHt | a | a | m | p m | | b s IHs t IHt | s IHs t IHt | s IHs | s IHs t IHt | s IHs t IHt | | | ];
      intros e o H; cbn [step] in H; try discriminate H; try (injection H as <-; constructor; fail).
    - destruct (step rec s e) as [ r | ] eqn:E; [ | discriminate H ]. destruct r; try (injection H as <-; apply run_seq_stop; [ apply IHs; exact E | reflexivity ]).
      eapply run_seq; [ apply IHs; exact E | apply IHt; exact H ].
    - destruct (decided k table c) eqn:D; [ | discriminate H ]. injection H as <-. rewrite <- (there_same k flags _ _ _ _ A D).
      destruct (there flags table c a e) eqn:T; constructor; exact T.
    - unfold walk_call in H. destruct (decided k table c) eqn:D; [ | discriminate H ]. rewrite <- (method_same k flags _ _ _ A D) in H.
      destruct (method flags table c m) as [ body | ] eqn:M; [ | injection H as <-; constructor; exact M ].
      destruct (rec body e) as [ o1 | ] eqn:W; [ | discriminate H ]. injection H as <-. eapply run_call; [ exact M | apply R; exact W ].
    - unfold walk_call in H. destruct (decided k table p) eqn:D; [ | discriminate H ]. rewrite <- (method_same k flags _ _ _ A D) in H.
      destruct (method flags table p m) as [ body | ] eqn:M; [ | injection H as <-; constructor; exact M ].
      destruct (rec body e) as [ o1 | ] eqn:W; [ | discriminate H ]. injection H as <-. eapply run_super; [ exact M | apply R; exact W ].
    - destruct (keval k b) as [ v | ] eqn:E; [ | discriminate H ]. apply run_if. rewrite (keval_sound _ _ _ _ A E). destruct v; auto.
    - destruct (step rec s e) as [ [ ] | ] eqn:E; try (apply run_right; apply IHt; exact H). injection H as <-. apply run_left. apply IHs. exact E.
    - destruct (step rec s e) as [ r | ] eqn:E; [ | discriminate H ]. apply run_try; [ apply IHs; rewrite E | ]; destruct r; congruence || (injection H as <-; reflexivity).
  Qed.
  Lemma walk_sound : forall n s e o, walk n s e = Some o -> run flags table c s e o.
  Proof. intros n. induction n as [ | n IH ]; cbn [walk]; apply step_sound; [ discriminate | exact IH ]. Qed.
End Walk.
Definition creates (k : known) (c : attr) : bool :=
  match method (to_flags k) classes c "__init__" with
  | None => true
  | Some body => match walk k classes c 5 body [] with Some (Done _) | Some (Return _) => true | _ => false end
  end && decided k classes c.
Definition flags_known3 (flags : attr -> bool) : known := ("HAS_PTRACE_EVENTS", flags "HAS_PTRACE_EVENTS") :: flags_known flags.
Lemma flags_agree3 : forall flags, agrees (flags_known3 flags) flags.
Proof. intros flags n b [ H | H ]; [ injection H as <- <-; reflexivity | exact (flags_agree flags n b H) ]. Qed.
Lemma creates_all : forall a b d, forallb (creates [("HAS_PTRACE_EVENTS", d); ("HAS_PROC", a); ("HAS_PTRACE_IO", b)]) (objects ++ programs) = true.
Proof. intros [] [] []; vm_compute; reflexivity. Qed.
Lemma all_created : forall flags c, In c (objects ++ programs) -> exists e, created flags classes c e.
Proof.
  intros flags c H. assert (Q := creates_all (flags "HAS_PROC") (flags "HAS_PTRACE_IO") (flags "HAS_PTRACE_EVENTS")). rewrite forallb_forall in Q. specialize (Q c H).
  change (creates (flags_known3 flags) c = true) in Q. unfold creates in Q.
  apply andb_true_iff in Q as [Q D]. assert (A := flags_agree3 flags). rewrite <- (method_same _ flags classes c "__init__" A D) in Q.
  destruct (method flags classes c "__init__") as [ body | ] eqn:M.
  - destruct (walk (flags_known3 flags) classes c 5 body []) as [ [ e | e | e | e | e ] | ] eqn:W; try discriminate;
      exists e; eapply created_init; try exact M; try exact (walk_sound _ classes c flags A _ _ _ _ W); reflexivity.
  - exists []. apply created_plain. exact M.
Qed.

Lemma instruction_lacks : forall flags e a, In a ["mnemonic"; "operands"] -> alive flags classes "Instruction" e -> there flags classes "Instruction" a e = false.
Proof.
  intros flags e a Ha He. assert (X : forall b, In b ["mnemonic"; "operands"] -> mem b (assigned classes) = false /\ existsb (has_name b) (members flags classes "Instruction") = false).
  { intros b [ <- | [ <- | [] ] ]; split; vm_compute; reflexivity. }
  destruct (X a Ha) as [X1 X2]. unfold there. rewrite X2, orb_false_r. destruct (mem a e) eqn:E; [ | reflexivity ].
  apply mem_In in E. apply (alive_assigned _ _ _ _ He) in E. apply mem_In in E. congruence.
Qed.
Lemma instruction_documentation : exists a, In a instruction_documented /\ forall flags, (exists e, created flags classes "Instruction" e)
  /\ forall e, alive flags classes "Instruction" e -> there flags classes "Instruction" a e = false.
Proof.
  exists "mnemonic". split; [ vm_compute; tauto | ]. intros flags. split.
  - apply all_created. apply in_or_app. left. apply mem_In. vm_compute. reflexivity.
  - intros e. apply instruction_lacks. left. reflexivity.
Qed.

(** Linux on x86_64 *)
Definition linux_flags (n : attr) : bool := mem n ["HAS_PROC"; "HAS_PTRACE_EVENTS"; "HAS_PTRACE_GETREGS"; "HAS_PTRACE_SIGINFO"; "HAS_PTRACE_SINGLESTEP"; "CPU_X86_64"].
Definition linux_known : known := [("HAS_PROC", true); ("HAS_PTRACE_IO", false)].
Lemma linux_agrees : agrees linux_known linux_flags.
Proof. intros n b [ H | [ H | [] ] ]; injection H as <- <-; reflexivity. Qed.
