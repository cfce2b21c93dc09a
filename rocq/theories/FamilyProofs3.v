(** * FamilyProofs3: strace.py with several processes, from the start of the program to the end of the last one (C123). *)
From Coq Require Import ZArith List Ascii String Bool Lia.
From Verif Require Import PyBase PyFacts Platform IntModel RegModel SigModel ToolsModel ArgModel DbgModel DbgSpec DbgProofs DbgProofs2 DbgProofs3 DbgProofs4
  SysModel SysSpec StraceModel StraceSpec StraceProofs StraceProofs2 StraceProofs5 StorySpec StoryProofs StoryProofs2 StoryProofs3 FamilySpec FamilyProofs FamilyProofs2.
Import ListNotations.
Open Scope Z_scope.

Section Loop.
  Context (p : platform) (ns : namespace) (repr_fs : list byte -> text) (errorcode : list (Z * text)) (strerror : Z -> text)
          (K : dkernel) (stops : nat -> nat -> stop) (o : soptions) (only : list text) (Hl : running_linux p = true).
  Notation family := (family (s_trace_exec o) (all_options o)).
  Notation round := (round p ns repr_fs errorcode strerror K stops o only).
  Notation trace_loop := (trace_loop p ns repr_fs errorcode strerror K stops o only).
  Notation entered pid id := (entered p ns repr_fs o only pid id).
  Notation returned pid id := (returned p ns repr_fs errorcode strerror o pid id).
  Notation line_of pid id := (line_of p ns repr_fs o pid id).
  Notation call_lines pid id := (call_lines p ns repr_fs errorcode strerror o only pid id).
  Notation entry_lines pid id := (entry_lines p ns repr_fs o only pid id).
  Notation end_lines pid id := (end_lines p ns repr_fs o only pid id).
  Notation tale pid id := (tale p ns repr_fs errorcode strerror o only pid id).
  Notation seen := (seen o).

  Definition in_phase (pid : Z) (id : nat) (ph : phase) (s : sstate) : Prop :=
    match ph with Between => s = cleared | Inside a => exists l, entered pid id a s l end.
  Lemma entered_one pid id a s1 s2 l1 l2 : entered pid id a s1 l1 -> entered pid id a s2 l2 -> s1 = s2 /\ l1 = l2.
  Proof.
    intros [c A1 A2|c c0 c1 l A1 A2 A3 A4] [d B1 B2|d d0 d1 m B1 B2 B3 B4]; pose proof (enters_one _ _ _ _ A1 B1); subst d; try contradiction; [auto|].
    pose proof (arguments_one _ _ _ _ _ _ _ _ A3 B3). subst d0. destruct (announced_one _ _ _ _ _ _ _ _ _ _ _ _ A4 B4) as [-> ->]. auto.
  Qed.
  Lemma entry_entered pid id a l : entry_lines pid id a l -> exists s, entered pid id a s l.
  Proof. intros [c A1 A2|c c0 c1 l0 A1 A2 A3 A4]; eexists; [eapply entered_hidden|eapply entered_shown]; eauto. Qed.
  Lemma call_returns pid id a b z l1 l2 s l : call_lines pid id a b z l1 l2 -> entered pid id a s l ->
    exists c, enters p a c /\ s = SState (ss_syscall s) (Some (f_name (c_func c))) true /\ returned pid id b z (ss_syscall s) l2.
  Proof.
    intros H He. destruct (call_split _ _ _ _ _ _ _ _ _ _ _ _ _ _ H) as (c & s' & A1 & A2 & A3 & A4 & A5).
    destruct (entered_one _ _ _ _ _ _ _ He A2) as (-> & ->). exists c. split; [exact A1|]. split; [now apply sstate_eta|exact A5].
  Qed.
  Lemma ends_inside pid id a z m l1 l2 s l : entry_lines pid id a l1 -> end_lines pid id (EndedInside a z m) (l1 ++ l2) -> entered pid id a s l ->
    exists x, l2 = rev (end_line ns pid m :: x) /\
      match ss_syscall s with
      | Some c => if ss_exit s && negb (s_enter o) then exists c' y, line_of pid id z c c' y /\ x = [y] else x = []
      | None => x = []
      end.
  Proof.
    intros H1 H2 H3. destruct (entry_entered _ _ _ _ H1) as (s1 & H4). destruct (entered_one _ _ _ _ _ _ _ H3 H4) as (-> & ->). clear H3.
    remember (l1 ++ l2) as l12. inversion H2 as [|a' z' m' c Hc Hn E|a' z' m' c c0 c1 x Hent Hc Hsel Hargs Hline E|a' z' m' c c0 c1 x Hent Hc Hsel Hargs Hline E]; subst a' z' m' l12.
    - destruct H4 as [d A1 A2|d d0 d1 l A1 A2 A3 A4]; [|pose proof (enters_one _ _ _ _ A1 Hc); subst d; contradiction].
      exists []. cbn in *. auto.
    - destruct H4 as [d A1 A2|d d0 d1 l A1 A2 A3 A4]; pose proof (enters_one _ _ _ _ A1 Hc); subst d; [contradiction|].
      pose proof (arguments_one _ _ _ _ _ _ _ _ A3 Hargs). subst d0. unfold announced in A4. rewrite Hent in A4. destruct A4 as (y & Hy & ->).
      cbn [app] in *. exists []. cbn [ss_syscall ss_exit]. rewrite Hent. cbn. split; [|reflexivity].
      match goal with H : _ :: _ = _ :: _ |- _ => injection H as _ H' end. auto.
    - destruct H4 as [d A1 A2|d d0 d1 l A1 A2 A3 A4]; pose proof (enters_one _ _ _ _ A1 Hc); subst d; [contradiction|].
      pose proof (arguments_one _ _ _ _ _ _ _ _ A3 Hargs). subst d0. unfold announced in A4. rewrite Hent in A4. destruct A4 as (-> & ->).
      cbn [app] in *. exists [x]. cbn [ss_syscall ss_exit]. rewrite Hent. cbn. split; [auto|eauto].
  Qed.

  Lemma part_own s l r id : actor s = id -> part id ((s, l) :: r) = (s, l) :: part id r.
  Proof. intros <-. unfold part. cbn. now rewrite Nat.eqb_refl. Qed.
  Lemma part_other s l r id : id <> actor s -> part id ((s, l) :: r) = part id r.
  Proof. intros H. unfold part. cbn. destruct (Nat.eqb_spec (actor s) id); [congruence|reflexivity]. Qed.

  (** Every living process is in a phase from which the rest of its account follows. *)
  Definition follows (st : tstate) (live : list member) (r : account) : Prop :=
    forall q, In q live -> exists ph, in_phase (m_pid q) (m_id q) ph (state_of st (m_id q)) /\ tale (m_pid q) (m_id q) ph (part (m_id q) r).
  Lemma follows_step st st' live s l r q s' ph : follows st live ((s, l) :: r) -> NoDup (map m_id live) -> In q live -> actor s = m_id q -> moved st st' (m_id q) s' ->
    in_phase (m_pid q) (m_id q) ph s' -> tale (m_pid q) (m_id q) ph (part (m_id q) r) -> follows st' live r.
  Proof.
    intros H Hn Hq Ea (M1 & M2) H1 H2 x Hx. destruct (Nat.eq_dec (m_id x) (m_id q)) as [E|E].
    - assert (x = q) as -> by (eapply (NoDup_map_same m_id); eauto). exists ph. rewrite M1. auto.
    - destruct (H x Hx) as (ph' & P1 & P2). exists ph'. rewrite (M2 _ E). split; [exact P1|]. rewrite part_other in P2 by congruence. exact P2.
  Qed.
  Definition born_well (steps : list step) (r : account) : Prop := forall c, In c (children steps) -> tale (snd c) (fst c) Between (part (fst c) r).

  Lemma happens_fresh quiet born live n steps asked : happens K stops (all_options o) quiet born live n steps asked ->
    forall c, In c (children steps) -> (born <= fst c)%nat.
  Proof.
    induction 1; cbn [children flat_map app]; intros c Hc; try (now apply IHhappens); [easy|].
    destruct Hc as [<-|Hc]; [cbn; lia|]. specialize (IHhappens c Hc). lia.
  Qed.
  Lemma loop_round_here rounds f code st code' st1 : d_list (t_dbg st) <> [] -> round f code st = (st1, Ret code') ->
    trace_loop (S rounds) f code st = trace_loop rounds f code' st1.
  Proof. exact (loop_round p ns repr_fs errorcode strerror K stops o only rounds f code st code' st1). Qed.
  Lemma seen_list st born live cs log q : seen st born live cs log -> In q live -> d_list (t_dbg st) <> [].
  Proof. intros (((_ & B & _) & _) & _) Hq. rewrite B. destruct live; [easy|discriminate]. Qed.
  Lemma seen_nodup st born live cs log : seen st born live cs log -> NoDup (map m_id live).
  Proof. intros (((_ & _ & _ & D & _) & _) & _). exact D. Qed.
  Lemma seen_born st born live cs log q : seen st born live cs log -> In q live -> (m_id q < born)%nat.
  Proof. intros (_ & (H & _) & _) Hq. now apply H. Qed.

  Lemma loop_family quiet born live n steps asked : happens K stops (all_options o) quiet born live n steps asked ->
    forall r st cs log code F, map fst r = steps -> List.length cs = n -> seen st born live cs log -> (quiet + 3 <= F)%nat -> follows st live r -> born_well steps r ->
    exists st', (forall rounds, (List.length steps < rounds)%nat -> trace_loop rounds F code st = (st', Ret (family_code steps code))) /\
      d_list (t_dbg st') = [] /\ d_calls (t_dbg st') = rev asked ++ cs /\ t_log st' = rev (List.concat (map snd r)) ++ log.
  Proof.
    induction 1 as [born n
      |born live n k w q x steps asked Hw Hk Hz Hres Hh IH
      |born live n k w q b z steps asked Hw Hk Hz Hres Htrap Hz2 Hres2 Hh IH
      |born live n k w q steps asked Hw Hk Hres Hh IH
      |born live n k w q signum steps asked Hsig Hw Hk Hd Hres Hh IH
      |born live n k w q kind pid s steps asked Hkind Hs Hpid Hfresh Hw Hk Hmsg new Htell Hset Hres1 Hres2 Hh IH
      |born live n k w q m z steps asked Hm Hw Hk Hz Hh IH]; intros r st cs log code F Hr Hcs Hseen HF Hfol Hborn.
    - destruct r; [|discriminate]. destruct Hseen as (((_ & B & _) & _ & _ & _ & C) & _ & L). exists st. cbn [map List.concat rev app family_code].
      split; [|split; [exact B|split; [exact C|exact L]]]. intros [|rounds] Hlt; [cbn in Hlt; lia|]. now apply loop_done.
    - destruct r as [|[s0 l] r]; [discriminate|]. cbn [map fst] in Hr. injection Hr as -> Hr. subst n.
      pose proof (awaits_In _ _ _ _ _ _ _ _ Hw) as Hq. destruct (Hfol q Hq) as (ph & P1 & P2). rewrite part_own in P2 by reflexivity.
      assert (Hgo : forall st1 s1 ph1, round F code st = (st1, Ret code) -> seen st1 born live (going_on q 0 :: rev w ++ cs) (rev l ++ log) -> moved st st1 (m_id q) s1 ->
        in_phase (m_pid q) (m_id q) ph1 s1 -> tale (m_pid q) (m_id q) ph1 (part (m_id q) r) ->
        exists st', (forall rounds, (List.length (SCall (m_id q) x :: steps) < rounds)%nat -> trace_loop rounds F code st = (st', Ret (family_code (SCall (m_id q) x :: steps) code))) /\
          d_list (t_dbg st') = [] /\ d_calls (t_dbg st') = rev (w ++ [going_on q 0] ++ asked) ++ cs /\ t_log st' = rev (List.concat (map snd ((SCall (m_id q) x, l) :: r))) ++ log).
      { intros st1 s1 ph1 R1 W1 M1 I1 T1. destruct (IH r st1 (going_on q 0 :: rev w ++ cs) (rev l ++ log) code F Hr) as (st' & L' & D' & C' & G').
        - cbn [List.length]. rewrite app_length, rev_length. lia.
        - exact W1.
        - exact HF.
        - apply (follows_step st st1 live (SCall (m_id q) x) l r q s1 ph1); auto. exact (seen_nodup _ _ _ _ _ Hseen).
        - intros c Hc. specialize (Hborn c Hc). rewrite part_other in Hborn; [exact Hborn|].
          pose proof (happens_fresh _ _ _ _ _ _ Hh c Hc). pose proof (seen_born _ _ _ _ _ _ Hseen Hq). cbn. lia.
        - exists st'. split; [|split; [exact D'|split]].
          + intros [|rounds] Hlt; [lia|]. cbn [List.length] in Hlt. rewrite (loop_round_here _ _ _ _ _ _ (seen_list _ _ _ _ _ _ Hseen Hq) R1). apply L'. lia.
          + rewrite C', !rev_app_distr, <- !app_assoc. reflexivity.
          + rewrite G'. cbn [map snd List.concat]. now rewrite rev_app_distr, <- app_assoc. }
      inversion P2 as [|a l0 r0 He Ht E1 E2|a b l1 l2 r0 Hc Hx Ht E1 E2| | | | | |]; subst.
      + cbn [in_phase] in P1. destruct (entry_entered _ _ _ _ He) as (s1 & Hs1).
        destruct (entry_round p ns repr_fs errorcode strerror K stops o only Hl F code st born live cs log k w q Hseen ltac:(lia) cleared _ s1 l P1 eq_refl Hw eq_refl Hres Hs1) as (st1 & R1 & W1 & M1).
        eapply Hgo; eauto. exists l. exact Hs1.
      + destruct P1 as (l0 & P1). destruct (call_returns _ _ _ _ _ _ _ _ _ Hc P1) as (c & C1 & C2 & C3).
        destruct (return_round p ns repr_fs errorcode strerror K stops o only Hl F code st born live cs log k w q Hseen ltac:(lia) _ (f_name (c_func c)) _ l C2
          ltac:(intros E; apply Hx; exists c; auto) Hw eq_refl Hres C3) as (st1 & R1 & W1 & M1).
        eapply Hgo; eauto. reflexivity.
    - destruct r as [|[s0 l] r]; [discriminate|]. cbn [map fst] in Hr. injection Hr as -> Hr. subst n.
      pose proof (awaits_In _ _ _ _ _ _ _ _ Hw) as Hq. destruct (Hfol q Hq) as (ph & P1 & P2). rewrite part_own in P2 by reflexivity.
      inversion P2 as [| | |a b0 z0 l1 l2 r0 Hc Hx Hte Ht E1 E2| | | | |]; subst.
      destruct P1 as (l0 & P1). destruct (call_returns _ _ _ _ _ _ _ _ _ Hc P1) as (c & C1 & C2 & C3).
      assert (f_name (c_func c) = T "execve") as En. { destruct Hx as (c' & Hc' & Hn'). rewrite (enters_one _ _ _ _ C1 Hc'). exact Hn'. }
      rewrite En in C2.
      destruct (executed_round p ns repr_fs errorcode strerror K stops o only Hl F code st born live cs log k w q Hseen ltac:(lia) _ _ _ l C2 Hte Hw eq_refl Hres Htrap eq_refl Hres2 C3) as (st1 & R1 & W1 & M1).
      destruct (IH r st1 (going_on q 0 :: hanging q :: going_on q 0 :: rev w ++ cs) (rev l ++ log) code F eq_refl) as (st' & L' & D' & C' & G').
      + cbn [List.length]. rewrite app_length, rev_length. lia.
      + exact W1.
      + exact HF.
      + eapply (follows_step st st1 live _ l r q _ Between Hfol); eauto; [exact (seen_nodup _ _ _ _ _ Hseen)|reflexivity].
      + intros c' Hc'. specialize (Hborn c' Hc'). rewrite part_other in Hborn; [exact Hborn|].
        pose proof (happens_fresh _ _ _ _ _ _ Hh c' Hc'). pose proof (seen_born _ _ _ _ _ _ Hseen Hq). cbn. lia.
      + exists st'. split; [|split; [exact D'|split]].
        * intros [|rounds] Hlt; [lia|]. cbn [List.length] in Hlt. rewrite (loop_round_here _ _ _ _ _ _ (seen_list _ _ _ _ _ _ Hseen Hq) R1). apply L'. lia.
        * rewrite C', !rev_app_distr, <- !app_assoc. reflexivity.
        * rewrite G'. cbn [map snd List.concat]. now rewrite rev_app_distr, <- app_assoc.
    - destruct r as [|[s0 l] r]; [discriminate|]. cbn [map fst] in Hr. injection Hr as -> Hr. subst n.
      pose proof (awaits_In _ _ _ _ _ _ _ _ Hw) as Hq. destruct (Hfol q Hq) as (ph & P1 & P2). rewrite part_own in P2 by reflexivity.
      inversion P2 as [| | | |ph0 r0 Ht E1 E2| | | |]; subst.
      destruct (execution_round p ns repr_fs errorcode strerror K stops o only Hl F code st born live cs log k w q Hseen ltac:(lia) Hw Hres) as (st1 & R1 & W1 & M1).
      destruct (IH r st1 (going_on q 0 :: rev w ++ cs) (execution_line (m_pid q) :: log) code F eq_refl) as (st' & L' & D' & C' & G').
      + cbn [List.length]. rewrite app_length, rev_length. lia.
      + exact W1.
      + exact HF.
      + eapply (follows_step st st1 live _ _ r q _ ph Hfol); eauto. exact (seen_nodup _ _ _ _ _ Hseen).
      + intros c' Hc'. specialize (Hborn c' Hc'). rewrite part_other in Hborn; [exact Hborn|].
        pose proof (happens_fresh _ _ _ _ _ _ Hh c' Hc'). pose proof (seen_born _ _ _ _ _ _ Hseen Hq). cbn. lia.
      + exists st'. split; [|split; [exact D'|split]].
        * intros [|rounds] Hlt; [lia|]. cbn [List.length] in Hlt. rewrite (loop_round_here _ _ _ _ _ _ (seen_list _ _ _ _ _ _ Hseen Hq) R1). apply L'. lia.
        * rewrite C', !rev_app_distr, <- !app_assoc. reflexivity.
        * rewrite G'. cbn [map snd List.concat]. now rewrite rev_app_distr, <- app_assoc.
    - destruct r as [|[s0 l] r]; [discriminate|]. cbn [map fst] in Hr. injection Hr as -> Hr. subst n.
      pose proof (awaits_In _ _ _ _ _ _ _ _ Hw) as Hq. destruct (Hfol q Hq) as (ph & P1 & P2). rewrite part_own in P2 by reflexivity.
      inversion P2 as [| | | | |ph0 s0 r0 Ht E1 E2| | |]; subst.
      destruct (signal_round p ns repr_fs errorcode strerror K stops o only Hl F code st born live cs log k w q Hseen ltac:(lia) signum Hsig Hw Hd Hres) as (st1 & R1 & W1 & M1).
      destruct (IH r st1 (going_on q (if signum =? 5 then 0 else signum) :: KDisplay (m_id q) signum :: rev w ++ cs) log (128 + signum) F eq_refl) as (st' & L' & D' & C' & G').
      + cbn [List.length]. rewrite app_length, rev_length. lia.
      + exact W1.
      + exact HF.
      + eapply (follows_step st st1 live _ _ r q _ ph Hfol); eauto. exact (seen_nodup _ _ _ _ _ Hseen).
      + intros c' Hc'. specialize (Hborn c' Hc'). rewrite part_other in Hborn; [exact Hborn|].
        pose proof (happens_fresh _ _ _ _ _ _ Hh c' Hc'). pose proof (seen_born _ _ _ _ _ _ Hseen Hq). cbn. lia.
      + exists st'. split; [|split; [exact D'|split]].
        * intros [|rounds] Hlt; [lia|]. cbn [List.length] in Hlt. rewrite (loop_round_here _ _ _ _ _ _ (seen_list _ _ _ _ _ _ Hseen Hq) R1). apply L'. lia.
        * rewrite C', !rev_app_distr, <- !app_assoc. reflexivity.
        * rewrite G'. reflexivity.
    - destruct r as [|[s0 l] r]; [discriminate|]. cbn [map fst] in Hr. injection Hr as -> Hr. subst n.
      pose proof (awaits_In _ _ _ _ _ _ _ _ Hw) as Hq. destruct (Hfol q Hq) as (ph & P1 & P2). rewrite part_own in P2 by reflexivity.
      inversion P2 as [| | | | | |ph0 kind0 new0 npid0 r0 Ht E1 E2| |]; subst.
      destruct (fork_round p ns repr_fs errorcode strerror K stops o only Hl F code st born live cs log k w q Hseen ltac:(lia) kind pid s Hkind Hs Hpid Hfresh Hw Hmsg Htell Hset Hres1 Hres2) as (st1 & R1 & W1 & M1).
      destruct (IH r st1 (going_on q 0 :: going_on new 0 :: KSetOptions born pid (all_options o) :: hanging new :: KEventMsg (m_id q) (m_pid q) :: rev w ++ cs) (birth_line born pid :: log) code F eq_refl) as (st' & L' & D' & C' & G').
      + cbn [List.length]. rewrite app_length, rev_length. lia.
      + exact W1.
      + exact HF.
      + assert (follows st1 live r) as Hf1. { eapply (follows_step st st1 live _ _ r q _ ph Hfol); eauto. exact (seen_nodup _ _ _ _ _ Hseen). }
        intros y Hy. apply in_app_iff in Hy as [Hy|[<-|[]]]; [now apply Hf1|]. exists Between. cbn [m_pid m_id new in_phase]. split.
        * destruct M1 as (_ & M1). rewrite M1. { destruct Hseen as (_ & (_ & Hc) & _). apply Hc. lia. } pose proof (seen_born _ _ _ _ _ _ Hseen Hq). lia.
        * pose proof (Hborn (born, pid) (or_introl eq_refl)) as Hb. cbn [fst snd] in Hb. rewrite part_other in Hb; [exact Hb|].
          pose proof (seen_born _ _ _ _ _ _ Hseen Hq). cbn. lia.
      + intros c' Hc'. specialize (Hborn c' (or_intror Hc')). rewrite part_other in Hborn; [exact Hborn|].
        pose proof (happens_fresh _ _ _ _ _ _ Hh c' Hc'). pose proof (seen_born _ _ _ _ _ _ Hseen Hq). cbn. lia.
      + exists st'. split; [|split; [exact D'|split]].
        * intros [|rounds] Hlt; [lia|]. cbn [List.length] in Hlt. rewrite (loop_round_here _ _ _ _ _ _ (seen_list _ _ _ _ _ _ Hseen Hq) R1). apply L'. lia.
        * rewrite C', !rev_app_distr, <- !app_assoc. reflexivity.
        * rewrite G'. cbn [map snd List.concat]. now rewrite rev_app_distr, <- app_assoc.
    - destruct r as [|[s0 l] r]; [discriminate|]. cbn [map fst] in Hr. injection Hr as -> Hr. subst n.
      pose proof (awaits_In _ _ _ _ _ _ _ _ Hw) as Hq. destruct (Hfol q Hq) as (ph & P1 & P2). rewrite part_own in P2 by reflexivity.
      assert (exists x, l = rev (end_line ns (m_pid q) m :: x) /\
        match ss_syscall (state_of st (m_id q)) with
        | Some c => if ss_exit (state_of st (m_id q)) && negb (s_enter o)
                    then exists z0 c' y, stops (List.length w + List.length cs)%nat (m_id q) = z0 /\ line_of (m_pid q) (m_id q) z0 c c' y /\ x = [y] else x = []
        | None => x = []
        end) as (x & Ex & Hx).
      { inversion P2 as [| | | | | | |m0 z0 E1 E2|a m0 z0 l1 l2 He Hend E1 E2]; subst.
        - cbn [in_phase] in P1. rewrite P1. exists []. split; reflexivity.
        - destruct P1 as (l0 & P1). destruct (ends_inside _ _ _ _ _ _ _ _ _ He Hend P1) as (x & X1 & X2). exists x. split; [exact X1|].
          destruct (ss_syscall _); [|exact X2]. destruct (_ && _); [|exact X2]. destruct X2 as (c' & y & Y1 & Y2). eauto 6. }
      destruct (end_round p ns repr_fs errorcode strerror K stops o only Hl F code st born live cs log k w q Hseen ltac:(lia) m x Hm Hw Hx) as (st1 & R1 & W1 & (s1 & M1)).
      assert (exists st', (forall rounds, (List.length steps < rounds)%nat -> trace_loop rounds F (match m with Exited c => c | _ => code end) st1 = (st', Ret (family_code steps (match m with Exited c => c | _ => code end)))) /\
        d_list (t_dbg st') = [] /\ d_calls (t_dbg st') = rev asked ++ rev w ++ cs /\ t_log st' = rev (List.concat (map snd r)) ++ end_line ns (m_pid q) m :: x ++ log) as (st' & L' & D' & C' & G').
      { apply IH; auto.
        - now rewrite app_length, rev_length.
        - intros y Hy. apply without_In in Hy as [Hy Hn]. destruct (Hfol y Hy) as (ph' & Q1 & Q2). exists ph'. destruct M1 as (_ & M1). rewrite (M1 _ Hn). split; [exact Q1|].
          rewrite part_other in Q2 by exact Hn. exact Q2.
        - intros c' Hc'. specialize (Hborn c' Hc'). rewrite part_other in Hborn; [exact Hborn|].
          pose proof (happens_fresh _ _ _ _ _ _ Hh c' Hc'). pose proof (seen_born _ _ _ _ _ _ Hseen Hq). cbn. lia. }
      exists st'. split; [|split; [exact D'|split]].
      + intros [|rounds] Hlt; [lia|]. cbn [List.length] in Hlt. rewrite (loop_round_here _ _ _ _ _ _ (seen_list _ _ _ _ _ _ Hseen Hq) R1). rewrite L' by lia. destruct m; reflexivity.
      + rewrite C', !rev_app_distr, <- !app_assoc. reflexivity.
      + rewrite G'. cbn [map snd List.concat]. rewrite rev_app_distr, <- app_assoc, Ex, rev_involutive. reflexivity.
  Qed.
End Loop.
