(** * EffectProofs2: consequences: what is resumed, commands that look, lines of such commands, reading functions. *)
From Coq Require Import ZArith List Ascii String Bool Lia.
From Verif Require Import PyBase PyInt Platform IntModel ToolsModel SigModel DbgModel MapModel TraceModel PyEval ExprModel GdbModel EffectSpec EffectProofs.
From Coq Require ListDec.
From Verif Require CallModel MemModel MemProofs.
Import ListNotations.
Open Scope Z_scope.

Lemma looks_resumes cur c : looks cur c -> resumes c = [].
Proof. destruct c; cbn; try reflexivity; intros []. Qed.
Lemma may_resumes cur h k c id : may cur h k c -> In id (resumes c) -> resumes c = [id] /\
  (~ In id (resumed h) \/ exists l, In (CProcesses, AProcs l) h /\ ~ NoDup l) .
Proof.
  intros Hm Hi. assert (resumes c = [id]) as Hc by (destruct c; cbn in *; try contradiction; destruct Hi as [->|[]]; reflexivity). split; [exact Hc|].
  destruct Hm; try (cbn in Hi; contradiction); try (cbn in Hi; destruct Hi as [<-|[]]; left; match goal with H : resumed h = [] |- _ => rewrite H end; intros []).
  - rewrite (looks_resumes _ _ H) in Hi. destruct Hi.
  - cbn in Hi. destruct Hi as [<-|[]]. destruct (ListDec.NoDup_dec Nat.eq_dec l) as [Hn|Hn]; [left; auto|right; eauto].
Qed.
Lemma lawful_once cur k h : lawful cur k h -> (forall l, In (CProcesses, AProcs l) h -> NoDup l) -> NoDup (resumed h).
Proof.
  induction h as [|[c a] h IH]; intros Hl Hn; [constructor|]. destruct Hl as [Hm Hl]. unfold resumed. cbn [flat_map fst]. fold (resumed h).
  assert (NoDup (resumed h)) as Hr by (apply IH; [exact Hl|]; intros l Hi; apply Hn; now right).
  destruct (resumes c) as [|id l] eqn:E; [exact Hr|]. destruct (may_resumes cur h k c id Hm) as [H1 H2]; [rewrite E; now left|]. rewrite H1 in E. injection E as <-. cbn [app]. constructor; [|exact Hr].
  destruct H2 as [H2|(l & H2 & H3)]; [exact H2|]. exfalso. apply H3, Hn. now right.
Qed.
Lemma run_once p ns dis eval env k st h : g_hist (fst (run p ns dis eval env k st)) = h ++ g_hist st -> (forall l, In (CProcesses, AProcs l) h -> NoDup l) -> NoDup (resumed h).
Proof.
  intros Hh Hn. destruct (run_lawful p ns dis eval env k st) as (h' & H1 & H2). rewrite H1 in Hh. apply app_inv_tail in Hh. subst h'. eapply lawful_once; eauto.
Qed.
Lemma lawful_looking cur k h : looking k = true -> lawful cur k h -> Forall (fun x => looks cur (fst x)) h.
Proof.
  intros Hk. induction h as [|[c a] h IH]; intros Hl; [constructor|]. destruct Hl as [Hm Hl]. constructor; [|now apply IH].
  destruct Hm; try discriminate; auto; try (destruct k; cbn in *; first [contradiction|discriminate]).
Qed.
Lemma run_looking p ns dis eval env k st : looking k = true ->
  exists h, g_hist (fst (run p ns dis eval env k st)) = h ++ g_hist st /\ Forall (fun x => looks (g_process st) (fst x)) h.
Proof. intros Hk. destruct (run_lawful p ns dis eval env k st) as (h & H1 & H2). exists h. split; [exact H1|]. now apply lawful_looking with (k := k). Qed.
Lemma line_looking p ns dis eval env l : Forall (fun c => looking (dispatch (strip c)) = true) l -> forall st,
  exists h, g_hist (fst (execute_all p ns dis eval env l st)) = h ++ g_hist st /\ Forall (fun x => exists cur, looks cur (fst x)) h.
Proof.
  induction l as [|c l IH]; intros Hl st; [exists []; split; [reflexivity|constructor]|]. inversion Hl as [|? ? Hc Hl']; subst. specialize (IH Hl').
  destruct (run_looking p ns dis eval env _ st Hc) as (h & H1 & H2).
  assert (Forall (fun x : gcall * ans => exists cur, looks cur (fst x)) h) as H3 by (eapply Forall_impl; [|exact H2]; intros x Hx; eexists; exact Hx).
  cbn [execute_all]. unfold gbind, gtry, execute, gbind.
  destruct (run p ns dis eval env (dispatch (strip c)) st) as [st1 [[m|]|x]] eqn:E; cbn [fst] in H1.
  - unfold glog, gret. cbn [fst push g_hist]. eexists ((CLog _, AUnit) :: h). rewrite H1. split; [reflexivity|]. constructor; [exists O; exact I|exact H3].
  - unfold gret. destruct (IH st1) as (h' & G1 & G2). exists (h' ++ h). rewrite G1, H1, app_assoc. split; [reflexivity|]. now apply Forall_app.
  - destruct (is_exception x).
    + unfold glog, graise. cbn [fst push g_hist]. eexists ((CLog _, AUnit) :: h). rewrite H1. split; [reflexivity|]. constructor; [exists O; exact I|exact H3].
    + unfold graise. cbn [fst]. eauto.
Qed.
Lemma run_state p ns dis eval env k st st' o : run p ns dis eval env k st = (st', o) ->
  (changes_process k = false -> g_process st' = g_process st) /\ (changes_signals k = false -> g_last st' = g_last st) /\
  (changes_terms k = false -> g_follow st' = g_follow st) /\ g_previous st' = g_previous st.
Proof.
  intros H. assert (st' = fst (run p ns dis eval env k st)) as -> by now rewrite H.
  split; [|split; [|split]]; intros; apply same_run; intros; try reflexivity; congruence.
Qed.

(** ** Reading functions *)
Import CallModel MemModel MemProofs.
Lemma readWord_mem E a s : s_mem (fst (readWord E a s)) = s_mem s.
Proof. now rewrite readWord_state. Qed.
Lemma mbind_mem {A B} (m : M A) (f : A -> M B) s : s_mem (fst (m s)) = s_mem s -> (forall a s', s_mem (fst (f a s')) = s_mem s') -> s_mem (fst (mbind m f s)) = s_mem s.
Proof. intros Hm Hf. unfold mbind. destruct (m s) as [s1 [a|e]]; cbn [fst] in *; [now rewrite Hf|exact Hm]. Qed.
Lemma readStruct_mem E a n s : s_mem (fst (readStruct E a n s)) = s_mem s.
Proof. apply mbind_mem; [apply readBytes_mem|]. intros b s'. destruct (_ <? _); reflexivity. Qed.
Lemma readArray_mem E a n c s : s_mem (fst (readArray E a n c s)) = s_mem s.
Proof. apply mbind_mem; [apply readBytes_mem|]. intros b s'. destruct (_ <? _); reflexivity. Qed.
Lemma readCString_mem E a n c s : s_mem (fst (readCString E a n c s)) = s_mem s.
Proof.
  unfold readCString. generalize (@nil byte), a, 0. generalize (S (Z.to_nat n)). intros fuel. revert s. induction fuel as [|f IH]; intros s str a' sz; [reflexivity|]. cbn [readCString_loop].
  apply mbind_mem; [apply readBytes_mem|]. intros d s'. destruct (match find_nul d with Some _ => _ | None => _ end) as [done d']. destruct (_ <=? _); [reflexivity|]. destruct done; [reflexivity|apply IH].
Qed.
