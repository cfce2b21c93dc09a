(** * LeaveProofs: proofs about letting a process go. *)
From Coq Require Import ZArith List Ascii String Bool Lia.
From Verif Require Import PyBase Platform CallModel MemModel MemSpec MemExamples StructModel RegModel RegSpec RegFinal
  BreakModel BreakSpec BreakProofs BreakFinal LeaveModel LeaveSpec.
Import ListNotations.
Open Scope Z_scope.

Lemma forget_mem id b : b_mem (forget_installed id b) = b_mem b /\ b_running (forget_installed id b) = b_running b /\
  b_dict (forget_installed id b) = b_dict b.
Proof. unfold forget_installed. destruct (nth_error (b_objs b) id); repeat split. Qed.
Lemma stopped_desinstall E K id ip b : b_running b = false ->
  b_mem (fst (BreakModel.desinstall E K id ip b)) = b_mem b /\ b_running (fst (BreakModel.desinstall E K id ip b)) = false.
Proof.
  intros H. unfold BreakModel.desinstall. destruct (nth_error (b_objs b) id) as [bp|]; [|auto].
  destruct (negb (bp_installed bp)); [auto|]. cbn [with_objs b_running]. rewrite H. cbv zeta.
  destruct ip.
  - destruct (setInstrPointer _ _ _ _) as [rg [?|?]].
    + unfold removeBreakpoint. destruct (dmem _ _ _); cbn; auto.
    + cbn; auto.
  - unfold removeBreakpoint. destruct (dmem _ _ _); cbn; auto.
Qed.
Lemma desinstall_running E K id ip b : b_running (fst (BreakModel.desinstall E K id ip b)) = b_running b.
Proof.
  unfold BreakModel.desinstall. destruct (nth_error (b_objs b) id) as [bp|]; [|auto].
  destruct (negb (bp_installed bp)); [auto|]. cbv zeta.
  destruct (b_running (with_objs _ _)) eqn:H; cbn [with_objs b_running] in H.
  - destruct (writeBytes _ _ _ _) as [m [?|?]]; [|cbn; auto].
    destruct ip; [destruct (setInstrPointer _ _ _ _) as [rg [?|?]]|];
      try (unfold removeBreakpoint; destruct (dmem _ _ _)); cbn; auto.
  - destruct ip; [destruct (setInstrPointer _ _ _ _) as [rg [?|?]]|];
      try (unfold removeBreakpoint; destruct (dmem _ _ _)); cbn; auto.
Qed.
Lemma create_running E a n b : b_running (fst (BreakModel.createBreakpoint E a n b)) = b_running b.
Proof.
  unfold BreakModel.createBreakpoint. destruct (findBreakpoint a b); [auto|].
  destruct (new_breakpoint _ _ _ _) as [m [?|?]]; auto.
Qed.

(** [running] is not changed *)
Lemma desinstall_l_running E K alive refused id ip s :
  b_running (l_b (fst (desinstall E K alive refused id ip s))) = b_running (l_b s) /\
  l_attached (fst (desinstall E K alive refused id ip s)) = l_attached s /\
  l_registered (fst (desinstall E K alive refused id ip s)) = l_registered s /\
  l_detaches (fst (desinstall E K alive refused id ip s)) = l_detaches s.
Proof.
  unfold desinstall. destruct (nth_error _ id) as [bp|]; [|auto]. destruct (negb (bp_installed bp)); [auto|].
  destruct (negb alive); [cbn; repeat split; apply forget_mem|].
  destruct (negb (l_attached s) && _); [cbn; repeat split; apply forget_mem|].
  pose proof (desinstall_running E K id ip (l_b s)) as H.
  destruct (BreakModel.desinstall E K id ip (l_b s)) as [b r]. cbn in *. auto.
Qed.
Lemma del_fst E K alive refused id s :
  fst (breakpoint_del E K alive refused id s) = fst (desinstall E K alive refused id false s).
Proof. unfold breakpoint_del. destruct (desinstall _ _ _ _ _ _ _). reflexivity. Qed.
Lemma drop_fst reply s : fst (process_del reply s) = fst (detach reply s).
Proof. unfold process_del. destruct (detach _ _). reflexivity. Qed.

(** after a detach *)
Lemma desinstall_gone E K alive refused id ip s : l_attached s = false ->
  b_mem (l_b (fst (desinstall E K alive refused id ip s))) = b_mem (l_b s).
Proof.
  intros H. unfold desinstall. destruct (nth_error _ id) as [bp|]; [|auto]. destruct (negb (bp_installed bp)); [auto|].
  destruct (negb alive); [apply forget_mem|]. rewrite H. cbn [negb andb].
  destruct (b_running (l_b s)) eqn:R; [apply forget_mem|].
  pose proof (stopped_desinstall E K id ip (l_b s) R) as [Q _].
  destruct (BreakModel.desinstall E K id ip (l_b s)) as [b r]. exact Q.
Qed.
Lemma use_gone E K u s : l_attached s = false ->
  l_attached (use1 E K s u) = false /\ l_detaches (use1 E K s u) = l_detaches s /\ b_mem (l_b (use1 E K s u)) = b_mem (l_b s).
Proof.
  intros H. destruct u; cbn [use1].
  - unfold createBreakpoint. rewrite H. destruct (findBreakpoint _ _); auto.
  - destruct (desinstall_l_running E K alive refused id set_ip s) as (_ & A & _ & D). rewrite A, D. auto using desinstall_gone.
  - rewrite del_fst. destruct (desinstall_l_running E K alive refused id false s) as (_ & A & _ & D). rewrite A, D.
    auto using desinstall_gone.
  - unfold detach. rewrite H. auto.
  - rewrite drop_fst. unfold detach. rewrite H. auto.
Qed.
Lemma uses_gone E K l : forall s, l_attached s = false ->
  l_attached (uses E K s l) = false /\ l_detaches (uses E K s l) = l_detaches s /\ b_mem (l_b (uses E K s l)) = b_mem (l_b s).
Proof.
  unfold uses. induction l as [|u l IH]; intros s H; [auto|]. cbn [fold_left].
  destruct (use_gone E K u s H) as (A & D & M). destruct (IH _ A) as (A' & D' & M'). rewrite A', D', M'. auto.
Qed.
Lemma detach_mem reply s : b_mem (l_b (fst (detach reply s))) = b_mem (l_b s) /\ l_attached (fst (detach reply s)) = false /\
  b_objs (l_b (fst (detach reply s))) = b_objs (l_b s) /\ b_dict (l_b (fst (detach reply s))) = b_dict (l_b s).
Proof.
  unfold detach. destruct (l_attached s) eqn:A; cbn [negb]; [|auto].
  destruct (b_running (l_b s)); [|cbn; auto]. destruct reply; cbn; auto.
Qed.
(** ** memory after a detach *)
Lemma leave_memory E K s reply l x :
  memory (uses E K (fst (detach reply s)) l) x = memory s x.
Proof.
  unfold memory. destruct (detach_mem reply s) as (M & A & _). destruct (uses_gone E K l _ A) as (_ & _ & Q). rewrite Q, M. reflexivity.
Qed.
(** ** PTRACE_DETACH *)
Lemma detach_requests reply s :
  l_detaches (fst (detach reply s)) =
  (l_detaches s + (if l_attached s && b_running (l_b s) then 1 else 0))%nat /\
  snd (detach reply s) = (if l_attached s && b_running (l_b s) then reply else Ok tt) /\
  (l_registered (fst (detach reply s)) = true <->
   l_registered s = true /\ (l_attached s = false \/ b_running (l_b s) = true /\ exists e, reply = Err e)).
Proof.
  unfold detach. destruct (l_attached s); cbn [negb andb]; [|cbn; split; [lia|split; [reflexivity|intuition]]].
  destruct (b_running (l_b s)); [|cbn; split; [lia|split; [reflexivity|split; [discriminate|intros (_ & [H|(H & _)]); discriminate]]]].
  destruct reply as [[]|e]; cbn; (split; [lia|split; [reflexivity|]]); split; intros H.
  - discriminate.
  - destruct H as (_ & [H|(_ & e & H)]); discriminate.
  - split; [exact H|]. right; split; eauto.
  - apply H.
Qed.
Lemma use_attached E K u s : l_attached s = true -> l_detaches s = 0%nat ->
  (l_attached (use1 E K s u) = true /\ l_detaches (use1 E K s u) = 0%nat) \/
  (l_attached (use1 E K s u) = false /\ (l_detaches (use1 E K s u) <= 1)%nat).
Proof.
  intros A D. destruct u; cbn [use1].
  - left. unfold createBreakpoint. rewrite A. destruct (BreakModel.createBreakpoint _ _ _ _). cbn. auto.
  - left. destruct (desinstall_l_running E K alive refused id set_ip s) as (_ & A' & _ & D'). rewrite A', D'. auto.
  - left. rewrite del_fst. destruct (desinstall_l_running E K alive refused id false s) as (_ & A' & _ & D'). rewrite A', D'. auto.
  - right. split; [apply detach_mem|]. destruct (detach_requests reply s) as (H & _). rewrite H, D. destruct (_ && _); lia.
  - right. rewrite drop_fst. split; [apply detach_mem|]. destruct (detach_requests reply s) as (H & _). rewrite H, D. destruct (_ && _); lia.
Qed.
Lemma uses_once E K l : forall s, l_detaches s = 0%nat -> (l_detaches (uses E K s l) <= 1)%nat.
Proof.
  assert (G : forall s, l_attached s = true -> l_detaches s = 0%nat -> (l_detaches (uses E K s l) <= 1)%nat).
  { unfold uses. induction l as [|u l IH]; intros s A D; [cbn; lia|]. cbn [fold_left].
    destruct (use_attached E K u s A D) as [[A' D']|[A' D']].
    - exact (IH _ A' D').
    - destruct (uses_gone E K l _ A') as (_ & Q & _). unfold uses in Q. rewrite Q. exact D'. }
  intros s D. destruct (l_attached s) eqn:A; [auto|].
  destruct (uses_gone E K l _ A) as (_ & Q & _). rewrite Q, D. lia.
Qed.

(** ** destruction *)
Lemma swallow_ptrace r : swallow r = Ok tt \/ exists e, r = Err e /\ swallow r = Err e /\
  forall n, e <> EPtraceError n /\ e <> EProcessError /\ e <> EDebuggerError.
Proof.
  destruct r as [[]|e]; [auto|]. destruct e; cbn; auto; right; eexists; repeat split; discriminate.
Qed.
Definition kill_all (E : penv) (K : rkernel) (d : list (Z * nat)) (s : lstate) : lstate :=
  fold_left (fun s (a : Z * nat) => fst (breakpoint_del E K false EProcessError (snd a) s)) d s.
Lemma nth_set {A} (l : list A) i j x : nth_error (set_nth i x l) j =
  if Nat.eqb i j then match nth_error l j with Some _ => Some x | None => None end else nth_error l j.
Proof.
  revert i j. induction l as [|y l IH]; intros i j.
  - destruct i, j; cbn; auto; destruct (Nat.eqb i j); auto.
  - destruct i, j; cbn; auto.
Qed.
Lemma del_dead E K id s j :
  b_mem (l_b (fst (breakpoint_del E K false EProcessError id s))) = b_mem (l_b s) /\
  b_dict (l_b (fst (breakpoint_del E K false EProcessError id s))) = b_dict (l_b s) /\
  nth_error (b_objs (l_b (fst (breakpoint_del E K false EProcessError id s)))) j =
  (if Nat.eqb id j then match nth_error (b_objs (l_b s)) j with
                        | Some bp => Some (BP (bp_address bp) (bp_size bp) (bp_old bp) false) | None => None end
   else nth_error (b_objs (l_b s)) j).
Proof.
  rewrite del_fst. unfold desinstall. destruct (nth_error (b_objs (l_b s)) id) as [bp|] eqn:H.
  - destruct (bp_installed bp) eqn:I; cbn [negb].
    + cbn [fst with_b l_b]. unfold forget_installed. rewrite H. cbn [with_objs b_mem b_dict b_objs]. repeat split.
      rewrite nth_set. destruct (Nat.eqb id j) eqn:Q; [|reflexivity]. apply Nat.eqb_eq in Q. subst j. rewrite H. reflexivity.
    + cbn [fst]. repeat split. destruct (Nat.eqb id j) eqn:Q; [|reflexivity]. apply Nat.eqb_eq in Q. subst j. rewrite H.
      destruct bp; cbn in *; subst; reflexivity.
  - cbn [fst]. repeat split. destruct (Nat.eqb id j) eqn:Q; [|reflexivity]. apply Nat.eqb_eq in Q. subst j. rewrite H. reflexivity.
Qed.
Lemma kill_spec E K d : forall s j,
  b_mem (l_b (kill_all E K d s)) = b_mem (l_b s) /\
  nth_error (b_objs (l_b (kill_all E K d s))) j =
  (if existsb (fun a : Z * nat => Nat.eqb (snd a) j) d then match nth_error (b_objs (l_b s)) j with
                        | Some bp => Some (BP (bp_address bp) (bp_size bp) (bp_old bp) false) | None => None end
   else nth_error (b_objs (l_b s)) j).
Proof.
  unfold kill_all. induction d as [|a d IH]; intros s j; [auto|]. cbn [fold_left existsb].
  destruct (del_dead E K (snd a) s j) as (M & _ & O).
  destruct (IH (fst (breakpoint_del E K false EProcessError (snd a) s)) j) as (M' & O'). rewrite M', O'. split; [exact M|].
  rewrite O. destruct (Nat.eqb (snd a) j); cbn [orb]; [|reflexivity].
  destruct (existsb _ d); [|reflexivity]. destruct (nth_error (b_objs (l_b s)) j); reflexivity.
Qed.
Lemma destroy_spec E K reply s :
  (forall x, memory (fst (destroy E K reply s)) x = memory s x) /\
  (snd (destroy E K reply s) = Ok tt \/ exists e, reply = Err e /\ snd (destroy E K reply s) = Err e /\
     forall n, e <> EPtraceError n /\ e <> EProcessError /\ e <> EDebuggerError) /\
  (forall a id bp, In (a, id) (b_dict (l_b s)) -> nth_error (b_objs (l_b (fst (destroy E K reply s)))) id = Some bp ->
     bp_installed bp = false).
Proof.
  unfold destroy, process_del.
  pose proof (detach_mem reply s) as (M & _ & O & D). pose proof (detach_requests reply s) as (_ & R & _).
  destruct (detach reply s) as [s' r]. cbn [fst snd] in *. fold (kill_all E K (b_dict (l_b s')) s').
  split; [intros x; unfold memory; destruct (kill_spec E K (b_dict (l_b s')) s' 0) as [Q _]; rewrite Q, M; reflexivity|].
  split.
  - destruct (swallow_ptrace r) as [H|(e & H & H' & N)]; [auto|]. right. exists e. rewrite H'. rewrite R in H.
    destruct (l_attached s && b_running (l_b s)) in H; [|discriminate H]. auto.
  - intros a id bp I H. destruct (kill_spec E K (b_dict (l_b s')) s' id) as [_ Q]. rewrite Q in H.
    replace (existsb _ _) with true in H.
    + destruct (nth_error (b_objs (l_b s')) id); [|discriminate]. inversion H. reflexivity.
    + symmetry. apply existsb_exists. exists (a, id). rewrite D. split; [exact I|]. apply Nat.eqb_refl.
Qed.

(** ** breakpoints while the process is attached *)
Lemma uses_plain E K l : forall s, l_attached s = true ->
  l_b (uses E K s (map plain_use l)) = fold_left (fun b a => act E K a b) l (l_b s) /\
  l_attached (uses E K s (map plain_use l)) = true.
Proof.
  unfold uses. induction l as [|a l IH]; intros s A; [auto|]. cbn [map fold_left].
  assert (H : l_b (use1 E K s (plain_use a)) = act E K a (l_b s) /\ l_attached (use1 E K s (plain_use a)) = true).
  { destruct a; cbn [plain_use use1 act].
    - unfold createBreakpoint. rewrite A. destruct (BreakModel.createBreakpoint _ _ _ _). cbn. auto.
    - destruct (desinstall_l_running E K true EProcessError id false s) as (_ & Q & _). rewrite Q. split; [|exact A].
      unfold desinstall. rewrite A. cbn [negb andb].
      unfold BreakModel.desinstall at 2. 
      destruct (nth_error (b_objs (l_b s)) id) as [bp|] eqn:N; [|reflexivity].
      destruct (negb (bp_installed bp)) eqn:I; [reflexivity|].
      unfold BreakModel.desinstall. rewrite N, I. cbv zeta. destruct (b_running _); [destruct (writeBytes _ _ _ _) as [? [?|?]]|]; try reflexivity;
      unfold removeBreakpoint; destruct (dmem _ _ _); reflexivity. }
  destruct H as [H1 H2]. destruct (IH _ H2) as [H3 H4]. rewrite H3, H4, H1. auto.
Qed.
Lemma clean_leave E K s l reply l' :
  plain E -> attached_now s -> well_behaved E K (l_b s) l ->
  (forall id bp, nth_error (b_objs (l_b (uses E K s (map plain_use l)))) id = Some bp -> bp_installed bp = false) ->
  forall x, memory (uses E K (fst (detach reply (uses E K s (map plain_use l)))) l') x = memory s x.
Proof.
  intros P (A & _ & _ & R & N) W I x. rewrite leave_memory. unfold memory.
  destruct (uses_plain E K l s A) as [Q _]. rewrite Q in I |- *. exact (all_removed E K (l_b s) l P R N W I x).
Qed.
Lemma traps_left : exists E K s u reply, plain E /\ attached_now s /\ p_cpu (e_p E) = X86_64 /\
  let s1 := uses E K s u in let s2 := fst (destroy E K reply s1) in
  l_detaches s2 = 1%nat /\ snd (destroy E K reply s1) = Ok tt /\ (forall id bp, nth_error (b_objs (l_b s2)) id = Some bp -> bp_installed bp = false) /\
  exists x b, memory s x = Some b /\ b <> z2b 0xcc /\ memory s2 x = Some (z2b 0xcc).
Proof.
  exists (xenv linux_x86_64), good_kernel, (LState (xstate page_mem linux_x86_64) true true 0), [UCreate EProcessError 4100 None], (Ok tt).
  split; [now apply xenv_plain|]. split; [repeat split; reflexivity|]. split; [reflexivity|]. cbv zeta.
  split; [vm_compute; reflexivity|]. split; [vm_compute; reflexivity|]. split.
  - intros [|[|id]] bp H; vm_compute in H; inversion H; reflexivity.
  - exists 4100, (z2b 4). split; [vm_compute; reflexivity|]. split; [discriminate|]. vm_compute. reflexivity.
Qed.
(** removing one after the detach *)
Lemma late_removal E K refused id ip s bp : l_attached s = false -> b_running (l_b s) = true ->
  nth_error (b_objs (l_b s)) id = Some bp -> bp_installed bp = true ->
  let '(s', r) := desinstall E K true refused id ip s in
  r = Err refused /\ b_mem (l_b s') = b_mem (l_b s) /\ b_dict (l_b s') = b_dict (l_b s) /\
  (exists bp', nth_error (b_objs (l_b s')) id = Some bp' /\ bp_installed bp' = false) /\
  forall ip', desinstall E K true refused id ip' s' = (s', Ok tt).
Proof.
  intros A R N I. unfold desinstall. rewrite N, I, A, R. cbn [negb andb]. destruct (forget_mem id (l_b s)) as (M & R' & D).
  repeat split; auto.
  - eexists. cbn [with_b l_b]. unfold forget_installed. rewrite N. cbn [with_objs b_objs]. rewrite nth_set, Nat.eqb_refl, N. split; reflexivity.
  - intros ip'. cbn [with_b l_b]. replace (nth_error (b_objs (forget_installed id (l_b s))) id)
      with (Some (BP (bp_address bp) (bp_size bp) (bp_old bp) false)); [reflexivity|].
    unfold forget_installed. rewrite N. cbn [with_objs b_objs]. rewrite nth_set, Nat.eqb_refl, N. reflexivity.
Qed.

Lemma no_new E refused address size s : l_attached s = false ->
  createBreakpoint E refused address size s = (s, Err (match findBreakpoint address (l_b s) with Some _ => EProcessError | None => refused end)).
Proof. intros H. unfold createBreakpoint. rewrite H. now destruct (findBreakpoint address (l_b s)). Qed.
Lemma hidden e s : l_attached s = true -> b_running (l_b s) = true ->
  (snd (process_del (Err e) s) = Ok tt <-> (exists n, e = EPtraceError n) \/ e = EProcessError \/ e = EDebuggerError) /\
  (snd (process_del (Err e) s) = Ok tt \/ snd (process_del (Err e) s) = Err e).
Proof.
  intros H1 H2. unfold process_del, detach. rewrite H1, H2. cbn [negb snd]. unfold swallow. split.
  - destruct e; cbn [is_ptrace_error]; (split; [intros H; try discriminate H; eauto|intros [(n & H)|[H|H]]; try discriminate H; reflexivity]).
  - destruct (is_ptrace_error e); auto.
Qed.
