(** * GdbSwitchProofs: the command switch of gdb.py. *)
From Coq Require Import ZArith List Ascii String Bool Lia.
From Verif Require Import PyBase PyFacts Platform IntModel SigModel DbgModel ExprModel GdbModel GdbSpec GdbProofs GdbProofs2 GdbCmdSpec GdbCmdProofs.
Import ListNotations.
Open Scope Z_scope.

Lemma index_first x before after : ~ In x before -> index_of x (before ++ x :: after) = Some (List.length before).
Proof.
  induction before as [|y before IH]; cbn [List.app index_of List.length]; intros N; [now rewrite Nat.eqb_refl|].
  destruct (Nat.eqb_spec x y) as [->|]; [destruct N; now left|]. rewrite IH; [reflexivity|]. intros I. apply N. now right.
Qed.
Lemma index_none x l : ~ In x l -> index_of x l = None.
Proof.
  induction l as [|y l IH]; [reflexivity|]. cbn [index_of]. intros N. destruct (Nat.eqb_spec x y) as [->|]; [destruct N; now left|]. rewrite IH; [reflexivity|]. intros I. apply N. now right.
Qed.
Lemma nth_next (x : nat) before after : nth_error (before ++ x :: after) (Nat.modulo (S (List.length before)) (List.length (before ++ x :: after))) = hd_error (after ++ before ++ [x]).
Proof.
  rewrite app_length. cbn [List.length]. destruct after as [|y after].
  - cbn [List.app List.length]. rewrite <- plus_n_Sm, <- plus_n_O, Nat.mod_same by lia. now destruct before.
  - cbn [List.length]. rewrite Nat.mod_small by lia. rewrite nth_error_app2 by lia. replace (S (List.length before) - List.length before)%nat with 1%nat by lia. reflexivity.
Qed.
Section Switch.
  Context (p : platform) (ns : namespace) (dis : bool) (eval : text -> res PyEval.pyval) (env : list (gcall * ans) -> gcall -> ans).
  Notation run := (GdbModel.run p ns dis eval env).
  Lemma switch_empty : run (dispatch (T "switch")) = switch p eval env [].
  Proof. reflexivity. Qed.
  Lemma switch_to st q : switchProcess q st = (if Nat.eqb (g_process st) q then st else set_process q (push (CLog (LSwitch q)) AUnit st), Ret tt).
  Proof. unfold switchProcess, gget, gbind, glog, gmodify. now destruct (Nat.eqb (g_process st) q). Qed.
  Lemma switch_alone st q : answers env CProcesses (AProcs [q]) ->
    does (run (dispatch (T "switch"))) st [(CProcesses, AProcs [q])] (Ret (Some (MText (T "There is only one process!")))).
  Proof. intros H. rewrite switch_empty. eexists. unfold switch, ask_procs, gbind, ask. cbv zeta. rewrite !H. split; [reflexivity|]. split; [reflexivity|]. repeat split. Qed.
  Lemma switch_next st before after q : answers env CProcesses (AProcs (before ++ g_process st :: after)) -> ~ In (g_process st) before -> before ++ after <> [] ->
    hd_error (after ++ before) = Some q -> q <> g_process st ->
    does_and_switches (run (dispatch (T "switch"))) st [(CProcesses, AProcs (before ++ g_process st :: after)); line (LSwitch q)] q (Ret None).
  Proof.
    intros H N L Hq D. rewrite switch_empty. exists (set_process q (push (CLog (LSwitch q)) AUnit (push CProcesses (AProcs (before ++ g_process st :: after)) st))). split; [|repeat split].
    unfold switch, ask_procs, gbind, ask. cbv zeta. rewrite !H. cbn [gret].
    assert (E : Nat.eqb (List.length (before ++ g_process st :: after)) 1 = false).
    { apply Nat.eqb_neq. rewrite app_length. cbn [List.length]. destruct before, after; cbn [List.app List.length] in *; try lia. now destruct L. }
    rewrite E. unfold gget. cbn [push g_process]. rewrite index_first by exact N. rewrite nth_next, app_assoc.
    assert (Hh : hd_error ((after ++ before) ++ [g_process st]) = Some q) by (destruct (after ++ before); [discriminate|exact Hq]). rewrite Hh, switch_to. cbn [push g_process].
    destruct (Nat.eqb_spec (g_process st) q) as [<-|]; [congruence|reflexivity].
  Qed.
  Lemma switch_lost st l : answers env CProcesses (AProcs l) -> List.length l <> 1%nat -> ~ In (g_process st) l ->
    does (run (dispatch (T "switch"))) st [(CProcesses, AProcs l)] (Raise (XErr EValueError)).
  Proof.
    intros H L N. rewrite switch_empty. eexists. unfold switch, ask_procs, gbind, ask. cbv zeta. rewrite !H. cbn [gret]. rewrite (proj2 (Nat.eqb_neq _ _) L). unfold gget. cbn [push g_process].
    rewrite index_none by exact N. split; [reflexivity|]. split; [reflexivity|]. repeat split.
  Qed.
  Lemma switch_text t : t <> [] -> run (dispatch (T "switch" ++ t)) = or_message (g_parseInteger p eval env t) (fun pid =>
    o <-- ask_obj env (CLookup pid); match o with Some id => _ <-- switchProcess id; gret None | None => gret (Some (MText (T "There is not process " ++ str_int pid))) end).
  Proof. destruct t; [congruence|]. reflexivity. Qed.
  Lemma switch_pid t pid st q : t <> [] -> parse p eval env st t = Ok pid -> answers env (CLookup pid) (AObj (Some q)) -> q <> g_process st ->
    does_and_switches (run (dispatch (T "switch" ++ t))) st [(CLookup pid, AObj (Some q)); line (LSwitch q)] q (Ret None).
  Proof.
    intros Ht Hp H Hq. rewrite switch_text by exact Ht. exists (set_process q (push (CLog (LSwitch q)) AUnit (push (CLookup pid) (AObj (Some q)) st))). split; [|repeat split].
    erewrite or_message_ok by (rewrite parse_run, Hp; reflexivity). unfold ask_obj, gbind, ask. cbv zeta. rewrite !H. cbn [gret]. rewrite switch_to. cbn [push g_process].
    destruct (Nat.eqb_spec (g_process st) q) as [<-|]; [congruence|reflexivity].
  Qed.
  Lemma switch_same t pid st : t <> [] -> parse p eval env st t = Ok pid -> answers env (CLookup pid) (AObj (Some (g_process st))) ->
    does (run (dispatch (T "switch" ++ t))) st [(CLookup pid, AObj (Some (g_process st)))] (Ret None).
  Proof.
    intros Ht Hp H. rewrite switch_text by exact Ht. apply does_parse with (v := pid); [exact Hp|]. eexists. unfold ask_obj, gbind, ask. cbv zeta. rewrite !H. cbn [gret]. rewrite switch_to. cbn [push g_process].
    rewrite Nat.eqb_refl. split; [reflexivity|]. split; [reflexivity|]. repeat split.
  Qed.
  Lemma switch_unknown t pid st : t <> [] -> parse p eval env st t = Ok pid -> answers env (CLookup pid) (AObj None) ->
    does (run (dispatch (T "switch" ++ t))) st [(CLookup pid, AObj None)] (Ret (Some (MText (T "There is not process " ++ str_int pid)))).
  Proof.
    intros Ht Hp H. rewrite switch_text by exact Ht. apply does_parse with (v := pid); [exact Hp|]. eexists. unfold ask_obj, gbind, ask. cbv zeta. rewrite !H. split; [reflexivity|]. split; [reflexivity|]. repeat split.
  Qed.
End Switch.
