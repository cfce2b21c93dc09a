(** * FateProofs3: the theorem about the end of a debugged program. *)
From Coq Require Import ZArith List Ascii Bool Lia.
From Verif Require Import PyBase Platform CallModel MemModel MemSpec StructModel RegModel RegSpec RegProofs BreakModel BreakSpec BreakProofs SessionModel SessionSpec SessionProofs SessionProofs2 SessionProofs3 SessionProofs4 LinkSpec.
From Verif Require Import SigModel DbgModel GdbModel GdbProofs2 EffectSpec EffectProofs EffectProofs2 LinkProofs LinkProofs2 LinkProofs3 LiveSpec LiveProofs LiveProofs2 LiveProofs3 LiveProofs4 LiveProofs5 FateSpec FateProofs FateProofs2.
Import ListNotations.
Open Scope Z_scope.

Lemma orderly_app E exec G l : forall i o l1, orderly E exec G i o (l ++ l1) -> orderly E exec G i o l /\ forall i' o' d n, proceed E exec G i o l i' o' d n -> orderly E exec G i' o' l1.
Proof.
  induction l as [|c l IH]; intros i o l1 T.
  - split; [exact I|]. intros i' o' d n P. inversion P; subst. exact T.
  - cbn [app] in T. destruct i as [k r bps]. destruct T as [T1 T2]. split.
    + split; [exact T1|]. intros i' o' d n P. exact (proj1 (IH _ _ _ (T2 _ _ _ _ P))).
    + intros i' o' d n P. inversion P; subst. match goal with H : proceeds _ _ _ _ _ _ _ _ _ _ |- _ => eapply (proj2 (IH _ _ _ (T2 _ _ _ _ H))); eassumption end.
Qed.
Lemma finishes_after exec G F k r d k1 r1 d' e : lives exec G k r d k1 r1 -> finishes exec G F k1 r1 d' e -> finishes exec G F k r (d ++ d') e.
Proof.
  intros L H. inversion H; subst.
  - eapply FExit; [eapply lives_app; eassumption|assumption].
  - rewrite app_assoc. eapply FSignal; [eapply lives_app; eassumption| |]; assumption.
Qed.
Theorem fate_undebugged E K exec G F ns dis eval env g st ks l g' st' k l1 id s c g1 : fresh_process E K st -> g_process g = O -> g_last g = [] -> g_hist g = [] ->
  typed_s E K exec G ns dis eval env g (World st Stopped) ks l g' (World st' Stopped) -> last_command E K exec G F ns dis eval env g' st' k l1 id s c g1 ->
  let i := Ideal (s_mem (b_mem st)) (r_regs (b_regs st)) [] in
  orderly E exec G i None (l ++ l1) -> (forall i' o d n a, proceed E exec G i None l i' o d n -> In a l1 -> finale E exec G F i' o a) ->
  exists e, ProcessExit id s c = exit_event e /\ finishes exec G F (s_mem (b_mem st)) (r_regs (b_regs st)) (delivered (g_hist g1)) e /\ reported (g_hist g1) = delivered (g_hist g1) /\
    In (CLog (LEvent (exit_event e)), AUnit) (g_hist g1).
Proof.
  intros Fr Hp Hl Hh T (g0 & h & Hk & H & Hs & Hg & W & M) i Ho Hf. cbv zeta in H, Hs.
  destruct (typed_overseen _ _ _ _ _ _ _ _ _ _ _ _ _ _ T st None eq_refl Hp Hl) as (st2 & o & d & n & h1 & [= <-] & V & La & H1 & D & R & P' & N'); [discriminate|].
  rewrite Hh, app_nil_r in H1. pose proof (fresh_sim E K st Fr) as S. pose proof Fr as (HE & Hi & Hnat & Hget & Hset & _).
  destruct (orderly_app _ _ _ _ _ _ _ Ho) as [Ho1 Ho2]. destruct (sim_session E K exec G HE Hi Hnat Hget Hset st None l st' o d n V i S Ho1) as (i' & I & S').
  destruct (proceed_lives E exec G _ _ _ _ _ _ _ I Ho1) as (L & Hd & Q); [discriminate|]. cbn [i_mem i_regs pending app] in L, Q.
  destruct (run_told _ _ _ _ _ _ _ _ _ H) as (h0 & c0 & G0 & _). destruct (handled E K exec G F env id s c g0 g1 h h0 (g_hist g') _ Hs Hg G0 W) as [-> W0].
  destruct (ends_fatal E K exec G F ns dis eval env k g' g0 o _ h0 st' P' La N' Hk H G0 W0) as (a & st0 & e & Ee & U & S0 & P & Rh).
  assert (forall l2, means (reads_at E eval env g') k ([(CProcesses, AProcs []); (CLog (LEvent (ProcessExit id s c)), AUnit)] ++ h0) l2 -> means (reads_at E eval env g') k h0 l2) as Mm.
  { intros l2 M2. inversion M2; subst; cbn [app In] in *;
      repeat match goal with H : _ \/ _ \/ In _ _ |- _ => destruct H as [H|[H|H]]; [discriminate H|discriminate H|] end; try (econstructor; eassumption).
    - apply (MNoAddress _ t); [assumption| |assumption]. match goal with H : Forall _ (_ :: _ :: h0) |- _ => inversion H as [|? ? _ H']; inversion H'; assumption end.
    - apply MNoStep. match goal with H : Forall _ (_ :: _ :: h0) |- _ => inversion H as [|? ? _ H']; inversion H'; assumption end. }
  rewrite (U l1 (Mm l1 M)) in *. pose proof (sim_seen E i' st' st0 S0 S') as S1. destruct i' as [ki ri li].
  destruct (sim_perishes E exec G F HE Hi Hnat ki ri li st0 o a e _ S1 (Ho2 _ _ _ _ I) (Hf _ _ _ _ a I (or_introl eq_refl)) Hd P) as [Fi Hdel].
  cbn [i_mem i_regs] in L. exists e. split; [exact Ee|].
  assert (delivered (g_hist g1) = d ++ delivered h0 /\ reported (g_hist g1) = n) as [Ed Er].
  { rewrite Hg, H1, !delivered_app, !reported_app, D, R, Rh. cbn. rewrite !app_nil_r. auto. }
  rewrite Ed, Er. split; [exact (finishes_after _ _ _ _ _ _ _ _ _ _ L Fi)|]. split; [rewrite Hdel; exact Q|].
  rewrite Hg, <- Ee. right. left. reflexivity.
Qed.
