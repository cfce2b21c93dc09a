(** * ImpProofs2: the check of the modules, one by one, says how they are imported. *)
From Coq Require Import List Bool PArith Arith Lia.
From Verif Require Import Platform ImpNames ImpModel ImpCode ImpCheck ImpProofs.
Import ListNotations.
Open Scope nat_scope.

Lemma value_eqb_eq : forall a b, value_eqb a b = true -> a = b.
Proof. intros [a | ] [b | ] H; cbn in H; try discriminate; [ apply eqb_prop in H; congruence | reflexivity ]. Qed.
Lemma ns_eqb_eq : forall a b, ns_eqb a b = true -> a = b.
Proof.
  induction a as [ | [n v] a IH]; intros [ | [m w] b] H; cbn in H; try discriminate; [ reflexivity | ].
  apply andb_prop in H. destruct H as [H H2]. apply andb_prop in H. destruct H as [H0 H1]. apply Pos.eqb_eq in H0. apply value_eqb_eq in H1. rewrite (IH b H2). congruence.
Qed.
Lemma iexn_eqb_eq : forall a b, iexn_eqb a b = true -> a = b.
Proof. intros [] [] H; cbn in H; try discriminate; reflexivity. Qed.

Lemma istmt_rec' : forall P : istmt -> Prop,
  (forall m b, P (SImport m b)) -> (forall m l, P (SFrom m l)) -> (forall n u, P (SBind n u)) -> (forall n e, P (SSet n e)) ->
  (forall e a b, Forall P a -> Forall P b -> P (SIf e a b)) -> (forall a c b, Forall P a -> Forall P b -> P (STry a c b)) ->
  (forall e, P (SRaise e)) -> (forall n, P (SDel n)) -> forall s, P s.
Proof.
  intros P H1 H2 H3 H4 H5 H6 H7 H8. fix F 1. intros s.
  assert (G : forall l, Forall P l) by (fix G 1; intros [ | x l]; [ apply Forall_nil | apply Forall_cons; [ apply F | apply G ] ]).
  destruct s; [ apply H1 | apply H2 | apply H3 | apply H4 | apply H5; apply G | apply H6; apply G | apply H7 | apply H8 ].
Qed.

Section Sound.
  Context (h : host) (T : table) (HT : check_with h T = true).

  Definition complete (st : modules) (w : name) : Prop := agree w (names_of w st) (tn T w).
  Definition waiting (st : modules) (w y : name) : Prop :=
    exists a, nt w y = Some a /\ forall n, In n a -> plain w n /\ look n (names_of w st) = look n (tn T w) /\ look n (tn T w) <> None.
  Definition keeps (P : name -> Prop) (st st' : modules) : Prop := forall w, P w -> has w st = true -> has w st' = true /\ agree w (names_of w st) (names_of w st').
  Definition news (P : name -> Prop) (st st' : modules) : Prop := forall w, P w -> has w st' = true -> has w st = false -> complete st' w.
  Definition anyone (_ : name) : Prop := True.
  Definition fine (st : modules) : Prop := forall w, has w st = true -> tout T w = IOk tt.
  Definition grows (st st' : modules) : Prop := forall w, has w st = true -> has w st' = true.

  Lemma keeps_refl : forall P st, keeps P st st.
  Proof. intros P st w _ H. split; [ exact H | apply agree_refl ]. Qed.
  Lemma keeps_trans : forall P a b c, keeps P a b -> keeps P b c -> keeps P a c.
  Proof. intros P a b c H1 H2 w Hp H. destruct (H1 w Hp H) as [A B]. destruct (H2 w Hp A) as [C D]. split; [ exact C | exact (agree_trans w _ _ _ B D) ]. Qed.
  Lemma news_refl : forall P st, news P st st.
  Proof. intros P st w _ H1 H2. congruence. Qed.
  Lemma complete_keeps : forall (P : name -> Prop) st st' w, P w -> keeps P st st' -> has w st = true -> complete st w -> complete st' w.
  Proof. intros P st st' w Hp Hk Hw Hc. destruct (Hk w Hp Hw) as [_ A]. exact (agree_trans w _ _ _ (agree_sym w _ _ A) Hc). Qed.
  Lemma waiting_keeps : forall (P : name -> Prop) st st' w y, P w -> keeps P st st' -> has w st = true -> waiting st w y -> waiting st' w y.
  Proof.
    intros P st st' w y Hp Hk Hw [a [Ha Hn]]. exists a. split; [ exact Ha | ]. intros n Hi. destruct (Hn n Hi) as [A [B C]]. split; [ exact A | ]. split; [ | exact C ].
    destruct (Hk w Hp Hw) as [_ D]. rewrite <- (D n A). exact B.
  Qed.
  Lemma news_trans : forall P a b c, news P a b -> keeps P b c -> news P b c -> news P a c.
  Proof.
    intros P a b c H1 Hk H2 w Hp Hc Ha. destruct (has w b) eqn:E; [ | exact (H2 w Hp Hc E) ].
    exact (complete_keeps P b c w Hp Hk E (H1 w Hp E Ha)).
  Qed.

  (** An import that behaves as the table says, for states that are far enough *)
  Definition imports_ok (imp : name -> modules -> modules * ires unit) (n : nat) : Prop :=
    forall t f st, find_file t code = Some f -> with_packages st -> fine st ->
      (has t st = false -> forall w, has w st = true -> complete st w \/ waiting st w t) ->
      4 * absent st + depth 4 t < n ->
      exists st', imp t st = (st', tout T t) /\ keeps anyone st st' /\ news anyone st st' /\ with_packages st' /\ fine st' /\ (tout T t = IOk tt -> has t st' = true).

  Section Exec.
    Context (imp : name -> modules -> modules * ires unit) (n : nat) (Himp : imports_ok imp n) (z : name).
    Definition others (w : name) : Prop := w <> z.
    Definition running (st : modules) (l : ns) : Prop :=
      has z st = true /\ agree z (names_of z st) l /\ with_packages st /\
      (forall w, others w -> has w st = true -> tout T w = IOk tt /\ (complete st w \/ waiting st w z)).

    Lemma may_import_ok : forall l m, may_import true T z l m = true ->
      tout T z = IOk tt /\ (anc 4 z m = true \/ exists a, nt z m = Some a /\ forall x, In x a -> look x l = look x (tn T z) /\ look x (tn T z) <> None).
    Proof.
      intros l m H. unfold may_import in H. apply andb_prop in H. destruct H as [H1 H2]. split; [ destruct (tout T z) as [[] | ]; [ reflexivity | discriminate ] | ].
      destruct (nt z m) as [a | ]; [ right | left; exact H2 ]. exists a. split; [ reflexivity | ]. intros x Hx.
      pose proof (proj1 (forallb_forall _ _) H2 x Hx) as A. unfold final in A. destruct (look x l) as [v | ]; [ | discriminate ]. destruct (look x (tn T z)) as [w | ]; [ | discriminate ].
      apply value_eqb_eq in A. subst. split; congruence.
    Qed.

    Lemma import_step : forall st l m f, running st l -> closed z m = true -> may_import true T z l m = true -> find_file m code = Some f -> 4 * absent st + 3 < n ->
      exists st', imp m st = (st', tout T m) /\ running st' l /\ keeps others st st' /\ news others st st' /\ grows st st' /\ (tout T m = IOk tt -> has m st' = true).
    Proof.
      intros st l m f [Hz [Ha [Hp Ho]]] Hc Hm Hf Hn. destruct (may_import_ok l m Hm) as [Hoz Hnt].
      assert (Hfine : fine st) by (intros w Hw; destruct (Pos.eq_dec w z) as [E | E]; [ subst; exact Hoz | exact (proj1 (Ho w E Hw)) ]).
      destruct (Himp m f st Hf Hp Hfine) as [st' [E [Hk [Hnew [Hp' [Hf' Hpres]]]]]].
      - intros Habs w Hw. destruct (Pos.eq_dec w z) as [Ew | Ew].
        + subst w. right. destruct Hnt as [Hanc | [a [Ea Hx]]]; [ rewrite (anc_present 4 st z m Hp Hz Hanc) in Habs; discriminate | ].
          exists a. split; [ exact Ea | ]. intros x Hi. destruct (Hx x Hi) as [B C]. pose proof (nt_plain z m f a x Hf Ea Hi) as Hpl. split; [ exact Hpl | ].
          split; [ rewrite (Ha x Hpl); exact B | exact C ].
        + destruct (Ho w Ew Hw) as [_ [Hc' | [a [Ea Hx]]]]; [ left; exact Hc' | right ].
          destruct (closed_nt z m w a Hc Ea) as [Hanc | [b [Eb Hi]]]; [ rewrite (anc_present 4 st w m Hp Hw Hanc) in Habs; discriminate | ].
          exists b. split; [ exact Eb | ]. intros x Hx'. apply Hx, Hi, Hx'.
      - pose proof (depth_small m). lia.
      - exists st'. split; [ exact E | ]. split.
        + split; [ exact (proj1 (Hk z I Hz)) | ]. split; [ exact (agree_trans z _ _ _ (agree_sym z _ _ (proj2 (Hk z I Hz))) Ha) | ]. split; [ exact Hp' | ].
          intros w Ew Hw. split; [ exact (Hf' w Hw) | ]. destruct (has w st) eqn:Es.
          * destruct (Ho w Ew Es) as [_ [Hc' | Hw']]; [ left; exact (complete_keeps anyone st st' w I Hk Es Hc') | right; exact (waiting_keeps anyone st st' w z I Hk Es Hw') ].
          * left. exact (Hnew w I Hw Es).
        + split; [ intros w _ Hw; exact (Hk w I Hw) | ]. split; [ intros w _ Hw Hs; exact (Hnew w I Hw Hs) | ]. split; [ intros w Hw; exact (proj1 (Hk w I Hw)) | exact Hpres ].
    Qed.

    Lemma bind_ok : forall st l new (st' := put z new st) l', running st l -> agree z new l' ->
      running st' l' /\ keeps others st st' /\ news others st st' /\ grows st st'.
    Proof.
      intros st l new st' l' [Hz [Ha [Hp Ho]]] Hn.
      assert (Hhas : forall w, has w st' = has w st).
      { intros w. destruct (Pos.eq_dec w z) as [E | E]; [ subst; unfold st'; rewrite has_put_same; symmetry; exact Hz | apply has_put_other; exact E ]. }
      assert (Hk : keeps others st st').
      { intros w Ew Hw. rewrite Hhas. split; [ exact Hw | ]. unfold st'. rewrite names_put_other by exact Ew. apply agree_refl. }
      split; [ | split; [ exact Hk | split; [ intros w _ H1 H2; rewrite Hhas in H1; congruence | intros w Hw; rewrite Hhas; exact Hw ] ] ].
      split; [ rewrite Hhas; exact Hz | ]. split; [ unfold st'; rewrite names_put_same; exact Hn | ]. split.
      - intros w p Hw Hpk. rewrite Hhas in *. exact (Hp w p Hw Hpk).
      - intros w Ew Hw. rewrite Hhas in Hw. destruct (Ho w Ew Hw) as [A [B | B]]; (split; [ exact A | ]).
        + left. exact (complete_keeps others st st' w Ew Hk Hw B).
        + right. exact (waiting_keeps others st st' w z Ew Hk Hw B).
    Qed.

    Lemma has_agree : forall a b x, agree z a b -> plain z x -> has x a = has x b.
    Proof. intros a b x H Hx. unfold has. rewrite (H x Hx). reflexivity. Qed.
    Lemma all_in_agree : forall u a b, agree z a b -> free z u = true -> forallb (fun x => has x a) u = all_in u b.
    Proof.
      intros u a b H Hf. unfold all_in. induction u as [ | x u IH]; [ reflexivity | ]. cbn [forallb]. unfold free in *. cbn [forallb] in Hf. apply andb_prop in Hf. destruct Hf as [H1 H2].
      rewrite (IH H2). apply negb_true_iff in H1. rewrite (has_agree a b x H (subs_plain z x H1)). reflexivity.
    Qed.
    Lemma beval_agree : forall e a b, agree z a b -> free z (reads e) = true -> beval h e a = beval h e b.
    Proof.
      induction e as [c | x | e IH | e1 IH1 e2 IH2 | u f]; intros a b H Hf; cbn [beval reads] in *.
      - reflexivity.
      - rewrite (H x); [ reflexivity | ]. apply (free_plain z [x] x Hf). left. reflexivity.
      - rewrite (IH a b H Hf). reflexivity.
      - unfold free in *. rewrite forallb_app in Hf. apply andb_prop in Hf. destruct Hf as [F1 F2]. rewrite (IH1 a b H F1), (IH2 a b H F2). reflexivity.
      - change (forallb (fun n0 => has n0 a) u) with (forallb (fun x => has x a) u). rewrite (all_in_agree u a b H Hf). reflexivity.
    Qed.

    Lemma take_ok : forall m names st got got', take true (tn T m) names got = Some got' ->
      (forall x, In x (map fst names) -> look x (names_of m st) = look x (tn T m)) ->
      from_names code imp m names st got = (st, got', IOk tt).
    Proof.
      induction names as [ | [x b] names IH]; intros st got got' H Hl; cbn [take from_names] in *; [ inversion H; reflexivity | ].
      rewrite (Hl x (or_introl eq_refl)). destruct (look x (tn T m)) as [v | ]; [ | discriminate ].
      apply IH; [ exact H | intros y Hy; apply Hl; right; exact Hy ].
    Qed.

    Definition sound_for (e : modules -> modules * ires unit) (a : ns -> option (ns * ires unit)) : Prop :=
      forall st l l' r, running st l -> a l = Some (l', r) -> 4 * absent st + 3 < n ->
        exists st', e st = (st', r) /\ running st' l' /\ keeps others st st' /\ news others st st' /\ grows st st'.

    Lemma list_ok : forall b, Forall (fun s => sound_for (exec h code imp z s) (aexec h true T z s)) b -> sound_for (exec_list h code imp z b) (aexec_list h true T z b).
    Proof.
      induction 1 as [ | s b Hs _ IH]; intros st l l' r Hr Ha Hn; cbn [exec_list aexec_list] in *.
      - inversion Ha; subst. exists st. split; [ reflexivity | ]. split; [ exact Hr | ]. split; [ apply keeps_refl | split; [ apply news_refl | intros w Hw; exact Hw ] ].
      - destruct (aexec h true T z s l) as [[l1 r1] | ] eqn:E; [ | discriminate ].
        destruct (Hs st l l1 r1 Hr E Hn) as [st1 [E1 [R1 [K1 [N1 G1]]]]]. rewrite E1. destruct r1 as [u | e].
        + assert (Hn1 : 4 * absent st1 + 3 < n) by (pose proof (absent_le st st1 G1); lia).
          destruct (IH st1 l1 l' r R1 Ha Hn1) as [st2 [E2 [R2 [K2 [N2 G2]]]]]. exists st2. split; [ exact E2 | ]. split; [ exact R2 | ].
          split; [ exact (keeps_trans _ _ _ _ K1 K2) | ]. split; [ exact (news_trans _ _ _ _ N1 K2 N2) | intros w Hw; exact (G2 w (G1 w Hw)) ].
        + inversion Ha; subst. exists st1. repeat (split; [ first [ reflexivity | assumption ] | ]). assumption.
    Qed.

    Lemma exec_inner : forall b st, (fix exec_list (l : list istmt) (st : modules) : modules * ires unit :=
        match l with [] => (st, IOk tt) | s :: l => match exec h code imp z s st with (st, IOk _) => exec_list l st | r => r end end) b st = exec_list h code imp z b st.
    Proof. induction b as [ | s b IH]; intros st; [ reflexivity | ]. cbn [exec_list]. destruct (exec h code imp z s st) as [st1 [u | e]]; [ apply IH | reflexivity ]. Qed.
    Lemma aexec_inner : forall b l, (fix aexec_list (b : list istmt) (l : ns) : option (ns * ires unit) :=
      match b with [] => Some (l, IOk tt) | s :: b => match aexec h true T z s l with Some (l, IOk _) => aexec_list b l | r => r end end) b l = aexec_list h true T z b l.
    Proof. induction b as [ | s b IH]; intros l; [ reflexivity | ]. cbn [aexec_list]. destruct (aexec h true T z s l) as [[l1 [u | e]] | ]; [ apply IH | reflexivity | reflexivity ]. Qed.

    Lemma ours_file : forall m, ours code m = true -> exists f, find_file m code = Some f.
    Proof. intros m H. unfold ours in H. destruct (find_file m code) as [f | ]; [ exists f; reflexivity | discriminate ]. Qed.
    Lemma same_state : forall st l, running st l -> keeps others st st /\ news others st st /\ grows st st.
    Proof. intros st l _. split; [ apply keeps_refl | split; [ apply news_refl | intros w Hw; exact Hw ] ]. Qed.
    Lemma bind_in_ok : forall st l new, running st l -> running (bind_in z new st) (rev_append new l) /\ keeps others st (bind_in z new st) /\ news others st (bind_in z new st) /\ grows st (bind_in z new st).
    Proof. intros st l new Hr. unfold bind_in. apply (bind_ok st l _ _ Hr). apply agree_app. exact (proj1 (proj2 Hr)). Qed.

    Lemma stmt_sound : forall s, stmt_ok z s = true -> sound_for (exec h code imp z s) (aexec h true T z s).
    Proof.
      intros s. induction s as [m bound | m names | names uses | x e | e a b IHa IHb | a c b IHa IHb | e | names] using istmt_rec'; intros Hok st l l' r Hr Ha Hn; cbn [stmt_ok] in Hok.
      - cbn [exec aexec] in *. destruct (ours code m) eqn:Eo.
        + destruct (may_import true T z l m) eqn:Em; [ | discriminate ]. destruct (ours_file m Eo) as [f Hf].
          destruct (import_step st l m f Hr Hok Em Hf Hn) as [st1 [E1 [R1 [K1 [N1 [G1 _]]]]]]. rewrite E1. destruct (tout T m) as [u | e]; inversion Ha; subst.
          * destruct (bind_in_ok st1 l (any [bound]) R1) as [R2 [K2 [N2 G2]]]. exists (bind_in z (any [bound]) st1). split; [ reflexivity | ]. split; [ exact R2 | ].
            split; [ exact (keeps_trans _ _ _ _ K1 K2) | split; [ exact (news_trans _ _ _ _ N1 K2 N2) | intros w Hw; exact (G2 w (G1 w Hw)) ] ].
          * exists st1. repeat (split; [ first [ reflexivity | assumption ] | ]). assumption.
        + destruct (outside h m m); inversion Ha; subst.
          * destruct (bind_in_ok st l (any [bound]) Hr) as [R2 [K2 [N2 G2]]]. eexists. split; [ reflexivity | ]. repeat (split; [ assumption | ]). assumption.
          * exists st. split; [ reflexivity | ]. split; [ exact Hr | exact (same_state st l' Hr) ].
      - cbn [exec aexec] in *. destruct (ours code m) eqn:Eo.
        + destruct (may_import true T z l m) eqn:Em; [ | discriminate ]. destruct (ours_file m Eo) as [f Hf].
          apply andb_prop in Hok. destruct Hok as [Hok Hin]. apply andb_prop in Hok. destruct Hok as [Hok Hfree]. apply andb_prop in Hok. destruct Hok as [Hne Hc].
          apply negb_true_iff in Hne. apply Pos.eqb_neq in Hne.
          destruct (import_step st l m f Hr Hc Em Hf Hn) as [st1 [E1 [R1 [K1 [N1 [G1 P1]]]]]]. rewrite E1. destruct (tout T m) as [u | e] eqn:Et.
          * destruct (take true (tn T m) names []) as [got | ] eqn:Eg; inversion Ha; subst.
            assert (Hhas : has m st1 = true) by (destruct u; exact (P1 eq_refl)).
            rewrite (take_ok m names st1 [] got Eg).
            -- destruct (bind_in_ok st1 l (rev got) R1) as [R2 [K2 [N2 G2]]]. eexists. split; [ reflexivity | ]. split; [ exact R2 | ].
               split; [ exact (keeps_trans _ _ _ _ K1 K2) | split; [ exact (news_trans _ _ _ _ N1 K2 N2) | intros w Hw; exact (G2 w (G1 w Hw)) ] ].
            -- intros x Hx. pose proof (free_plain m (map fst names) x Hfree Hx) as Hpl. destruct R1 as [_ [_ [_ Ho]]].
               destruct (Ho m Hne Hhas) as [_ [Hcomp | [a [Ea Hw]]]]; [ exact (Hcomp x Hpl) | ].
               rewrite Ea in Hin. pose proof (proj1 (forallb_forall _ _) Hin x Hx) as Hmem. apply mem_In in Hmem. exact (proj1 (proj2 (Hw x Hmem))).
          * inversion Ha; subst. exists st1. repeat (split; [ first [ reflexivity | assumption ] | ]). assumption.
        + destruct (forallb (fun n0 => outside h m (fst n0)) names); inversion Ha; subst.
          * destruct (bind_in_ok st l (any (map snd names)) Hr) as [R2 [K2 [N2 G2]]]. eexists. split; [ reflexivity | ]. repeat (split; [ assumption | ]). assumption.
          * exists st. split; [ reflexivity | ]. split; [ exact Hr | exact (same_state st l' Hr) ].
      - cbn [exec aexec] in *. unfold defined. rewrite (all_in_agree uses _ l (proj1 (proj2 Hr)) Hok). destruct (all_in uses l); inversion Ha; subst.
        + destruct (bind_in_ok st l (any names) Hr) as [R2 [K2 [N2 G2]]]. eexists. split; [ reflexivity | ]. repeat (split; [ assumption | ]). assumption.
        + exists st. split; [ reflexivity | ]. split; [ exact Hr | exact (same_state st l' Hr) ].
      - cbn [exec aexec] in *. rewrite (beval_agree e _ l (proj1 (proj2 Hr)) Hok). destruct (beval h e l) as [v | err]; inversion Ha; subst.
        + destruct (bind_in_ok st l [(x, VBool v)] Hr) as [R2 [K2 [N2 G2]]]. eexists. split; [ reflexivity | ]. repeat (split; [ assumption | ]). assumption.
        + exists st. split; [ reflexivity | ]. split; [ exact Hr | exact (same_state st l' Hr) ].
      - apply andb_prop in Hok. destruct Hok as [Hok Hb]. apply andb_prop in Hok. destruct Hok as [He Hsa].
        assert (La : sound_for (exec_list h code imp z a) (aexec_list h true T z a)).
        { apply list_ok. rewrite Forall_forall in *. intros s Hs. apply IHa; [ exact Hs | exact (proj1 (forallb_forall _ _) Hsa s Hs) ]. }
        assert (Lb : sound_for (exec_list h code imp z b) (aexec_list h true T z b)).
        { apply list_ok. rewrite Forall_forall in *. intros s Hs. apply IHb; [ exact Hs | exact (proj1 (forallb_forall _ _) Hb s Hs) ]. }
        cbn [exec aexec] in *. rewrite (beval_agree e _ l (proj1 (proj2 Hr)) He). destruct (beval h e l) as [[ | ] | err].
        + rewrite aexec_inner in Ha. rewrite exec_inner. exact (La st l l' r Hr Ha Hn).
        + rewrite aexec_inner in Ha. rewrite exec_inner. exact (Lb st l l' r Hr Ha Hn).
        + inversion Ha; subst. exists st. split; [ reflexivity | ]. split; [ exact Hr | exact (same_state st l' Hr) ].
      - apply andb_prop in Hok. destruct Hok as [Hsa Hb].
        assert (La : sound_for (exec_list h code imp z a) (aexec_list h true T z a)).
        { apply list_ok. rewrite Forall_forall in *. intros s Hs. apply IHa; [ exact Hs | exact (proj1 (forallb_forall _ _) Hsa s Hs) ]. }
        assert (Lb : sound_for (exec_list h code imp z b) (aexec_list h true T z b)).
        { apply list_ok. rewrite Forall_forall in *. intros s Hs. apply IHb; [ exact Hs | exact (proj1 (forallb_forall _ _) Hb s Hs) ]. }
        cbn [exec aexec] in *. rewrite aexec_inner in Ha. rewrite exec_inner. destruct (aexec_list h true T z a l) as [[l1 r1] | ] eqn:E; [ | discriminate ].
        destruct (La st l l1 r1 Hr E Hn) as [st1 [E1 [R1 [K1 [N1 G1]]]]]. rewrite E1. destruct r1 as [u | err].
        + inversion Ha; subst. exists st1. repeat (split; [ first [ reflexivity | assumption ] | ]). assumption.
        + destruct (existsb (iexn_eqb err) c).
          * rewrite aexec_inner in Ha. rewrite exec_inner. assert (Hn1 : 4 * absent st1 + 3 < n) by (pose proof (absent_le st st1 G1); lia).
            destruct (Lb st1 l1 l' r R1 Ha Hn1) as [st2 [E2 [R2 [K2 [N2 G2]]]]]. exists st2. split; [ exact E2 | ]. split; [ exact R2 | ].
            split; [ exact (keeps_trans _ _ _ _ K1 K2) | ]. split; [ exact (news_trans _ _ _ _ N1 K2 N2) | intros w Hw; exact (G2 w (G1 w Hw)) ].
          * inversion Ha; subst. exists st1. repeat (split; [ first [ reflexivity | assumption ] | ]). assumption.
      - cbn [exec aexec] in *. inversion Ha; subst. exists st. split; [ reflexivity | ]. split; [ exact Hr | exact (same_state st l' Hr) ].
      - cbn [exec aexec] in *. unfold defined. rewrite (all_in_agree names _ l (proj1 (proj2 Hr)) Hok). destruct (all_in names l); inversion Ha; subst.
        + destruct (bind_ok st l (fold_left (fun l n => drop n l) names (names_of z st)) (fold_left (fun l n => drop n l) names l) Hr (agree_drop z names _ _ (proj1 (proj2 Hr)))) as [R2 [K2 [N2 G2]]].
          eexists. split; [ reflexivity | ]. repeat (split; [ assumption | ]). assumption.
        + exists st. split; [ reflexivity | ]. split; [ exact Hr | exact (same_state st l' Hr) ].
    Qed.
  End Exec.

  Lemma check_of : forall t f, find_file t code = Some f ->
    exists l, aexec_list h true T t (f_body f) [] = Some (l, tout T t) /\ (tout T t = IOk tt -> l = tn T t) /\ (forall p, package_of t = Some p -> tout T p = IOk tt).
  Proof.
    intros t f Hf. destruct (find_file_name t code f Hf) as [Hn Hi]. pose proof (proj1 (forallb_forall _ _) HT f Hi) as A. unfold check_file in A. rewrite Hn in A.
    apply andb_prop in A. destruct A as [A B]. destruct (aexec_list h true T t (f_body f) []) as [[l [u | e]] | ]; [ | | discriminate ].
    - exists l. destruct (tout T t) as [u' | ]; [ | discriminate ]. destruct u, u'. split; [ reflexivity | ]. split; [ intros _; exact (ns_eqb_eq _ _ A) | ].
      intros p Hp. unfold package_of in Hp. rewrite Hf in Hp. rewrite Hp in B. destruct (tout T p) as [[] | ]; [ reflexivity | discriminate ].
    - exists l. destruct (tout T t) as [u' | e']; [ discriminate | ]. apply iexn_eqb_eq in A. subst. split; [ reflexivity | ]. split; [ discriminate | ].
      intros p Hp. unfold package_of in Hp. rewrite Hf in Hp. rewrite Hp in B. destruct (tout T p) as [[] | ]; [ reflexivity | discriminate ].
  Qed.
  Lemma file_parts : forall t f, find_file t code = Some f ->
    forallb (stmt_ok t) (f_body f) = true /\ (forall p, f_package f = Some p -> closed t p = true /\ p <> t /\ exists g, find_file p code = Some g).
  Proof.
    intros t f Hf. destruct (file_ok_of t f Hf) as [Hok [Hn _]]. unfold file_ok in Hok. rewrite Hn in Hok. apply andb_prop in Hok. destruct Hok as [Hok _].
    apply andb_prop in Hok. destruct Hok as [Hok _]. apply andb_prop in Hok. destruct Hok as [Hp Hb]. split; [ exact Hb | ]. intros p Ep. rewrite Ep in Hp.
    apply andb_prop in Hp. destruct Hp as [Hp Hne]. apply andb_prop in Hp. destruct Hp as [Hc Ho]. apply negb_true_iff in Hne. apply Pos.eqb_neq in Hne.
    split; [ exact Hc | split; [ exact Hne | exact (ours_file p Ho) ] ].
  Qed.
  Lemma short_not_plain : forall l f p, In f l -> f_package f = Some p -> submodule p (f_short f) l <> None.
  Proof.
    induction l as [ | g l IH]; intros f p Hi Hp; [ contradiction | ]. cbn [submodule]. destruct Hi as [Hi | Hi].
    - subst g. rewrite Hp, !Pos.eqb_refl. discriminate.
    - destruct (match f_package g with Some p0 => (Pos.eqb p0 p && Pos.eqb (f_short g) (f_short f))%bool | None => false end); [ discriminate | exact (IH f p Hi Hp) ].
  Qed.

  Lemma import_sound : forall fuel, imports_ok (import_module h code fuel) fuel.
  Proof.
    induction fuel as [ | fuel IH]; intros t f st Hf Hp Hfine Hw Hn; [ lia | ]. cbn [import_module].
    destruct (has t st) eqn:Et.
    { exists st. rewrite (Hfine t Et). split; [ reflexivity | ]. split; [ apply keeps_refl | split; [ apply news_refl | split; [ exact Hp | split; [ exact Hfine | intros _; exact Et ] ] ] ]. }
    specialize (Hw eq_refl). rewrite Hf. destruct (file_parts t f Hf) as [Hbody Hpack]. destruct (check_of t f Hf) as [l [Hexec [Hl Hpo]]].
    assert (Hpk : package_of t = f_package f) by (unfold package_of; rewrite Hf; reflexivity).
    assert (Hpre : exists st1, (match f_package f with None => (st, IOk tt) | Some p => import_module h code fuel p st end) = (st1, IOk tt) /\
      keeps anyone st st1 /\ news anyone st st1 /\ with_packages st1 /\ fine st1 /\ (forall p, f_package f = Some p -> has p st1 = true)).
    { destruct (f_package f) as [p | ] eqn:Ep.
      - destruct (Hpack p eq_refl) as [Hc [Hne [g Hg]]]. rewrite Hpk in Hpo.
        destruct (IH p g st Hg Hp Hfine) as [st1 [E1 [K1 [N1 [P1 [F1 Hh]]]]]].
        + intros Habs w Hhw. destruct (Hw w Hhw) as [Hc' | [a [Ea Hx]]]; [ left; exact Hc' | right ].
          destruct (closed_nt t p w a Hc Ea) as [Hanc | [b [Eb Hi]]]; [ rewrite (anc_present 4 st w p Hp Hhw Hanc) in Habs; discriminate | ].
          exists b. split; [ exact Eb | ]. intros x Hx'. apply Hx, Hi, Hx'.
        + pose proof (depth_package t p Hpk). lia.
        + rewrite (Hpo p eq_refl) in *. exists st1. split; [ exact E1 | ]. split; [ exact K1 | split; [ exact N1 | split; [ exact P1 | split; [ exact F1 | ] ] ] ].
          intros p' E'. inversion E'; subst. exact (Hh eq_refl).
      - exists st. split; [ reflexivity | ]. split; [ apply keeps_refl | split; [ apply news_refl | split; [ exact Hp | split; [ exact Hfine | discriminate ] ] ] ]. }
    destruct Hpre as [st1 [E1 [K1 [N1 [P1 [F1 Hhp]]]]]]. rewrite E1.
    destruct (has t st1) eqn:Et1.
    { exists st1. rewrite (F1 t Et1). split; [ reflexivity | ]. split; [ exact K1 | split; [ exact N1 | split; [ exact P1 | split; [ exact F1 | intros _; exact Et1 ] ] ] ]. }
    set (st2 := put t [] st1).
    assert (Hne : forall w, has w st1 = true -> w <> t) by (intros w Hhw E; subst; congruence).
    assert (Hhas2 : forall w, w <> t -> has w st2 = has w st1) by (intros w E; apply has_put_other; exact E).
    assert (R2 : running t st2 []).
    { split; [ apply has_put_same | ]. split; [ unfold st2; rewrite names_put_same; apply agree_refl | ]. split.
      - intros w p Hhw Hpw. destruct (Pos.eq_dec w t) as [E | E].
        + subst w. rewrite Hpk in Hpw. pose proof (Hhp p Hpw) as Hpp. rewrite Hhas2 by exact (Hne p Hpp). exact Hpp.
        + rewrite Hhas2 in Hhw by exact E. pose proof (P1 w p Hhw Hpw) as Hpp. rewrite Hhas2 by exact (Hne p Hpp). exact Hpp.
      - intros w Ew Hhw. rewrite Hhas2 in Hhw by exact Ew. split; [ exact (F1 w Hhw) | ].
        assert (Hnames : names_of w st2 = names_of w st1) by (apply names_put_other; exact Ew). unfold complete, waiting. rewrite Hnames.
        destruct (has w st) eqn:Es.
        + destruct (Hw w Es) as [Hc | Hc]; [ left; exact (complete_keeps anyone st st1 w I K1 Es Hc) | right; exact (waiting_keeps anyone st st1 w t I K1 Es Hc) ].
        + left. exact (N1 w I Hhw Es). }
    assert (Hfuel : 4 * absent st2 + 3 < fuel).
    { assert (Hlt : absent st2 < absent st1) by exact (absent_put st1 t f [] Hf Et1). assert (G1 : grows st st1) by (intros w Hhw; exact (proj1 (K1 w I Hhw))). pose proof (absent_le st st1 G1). lia. }
    assert (Hsound : sound_for fuel t (exec_list h code (import_module h code fuel) t (f_body f)) (aexec_list h true T t (f_body f))).
    { apply list_ok. rewrite Forall_forall. intros s Hs. apply stmt_sound; [ exact IH | ]. exact (proj1 (forallb_forall _ _) Hbody s Hs). }
    destruct (Hsound st2 [] l (tout T t) R2 Hexec Hfuel) as [st3 [E3 [R3 [K3 [N3 G3]]]]]. rewrite E3. destruct R3 as [Hh3 [A3 [P3 O3]]].
    destruct (tout T t) as [u | e] eqn:Eo.
    - destruct u. specialize (Hl eq_refl). subst l.
      set (st4 := match f_package f with Some p => if has p st3 then bind_in p [(f_short f, VAny)] st3 else st3 | None => st3 end).
      assert (Hhas4 : forall w, has w st4 = has w st3).
      { intros w. unfold st4. destruct (f_package f) as [p | ]; [ | reflexivity ]. destruct (has p st3) eqn:Ep; [ | reflexivity ]. unfold bind_in.
        destruct (Pos.eq_dec w p) as [E | E]; [ subst; rewrite has_put_same; symmetry; exact Ep | apply has_put_other; exact E ]. }
      assert (A4 : forall w, agree w (names_of w st3) (names_of w st4)).
      { intros w. unfold st4. destruct (f_package f) as [p | ] eqn:Ep; [ | apply agree_refl ]. destruct (has p st3); [ | apply agree_refl ]. unfold bind_in.
        destruct (Pos.eq_dec w p) as [E | E]; [ | rewrite names_put_other by exact E; apply agree_refl ]. subst w. rewrite names_put_same. intros x Hx. cbn [rev_append look].
        destruct (Pos.eqb x (f_short f)) eqn:Ex; [ | reflexivity ]. apply Pos.eqb_eq in Ex. subst x.
        destruct (find_file_name t code f Hf) as [_ Hi]. destruct (short_not_plain code f p Hi Ep Hx). }
      assert (K4 : keeps anyone st3 st4) by (intros w _ Hhw; rewrite Hhas4; split; [ exact Hhw | apply A4 ]).
      exists st4. split; [ reflexivity | ].
      assert (C3 : forall w, has w st3 = true -> has w st1 = false -> complete st3 w).
      { intros w Hhw Hs. destruct (Pos.eq_dec w t) as [E | E]; [ subst; exact A3 | ]. apply (N3 w E Hhw). rewrite Hhas2 by exact E. exact Hs. }
      assert (K13 : keeps anyone st1 st3).
      { intros w _ Hhw. pose proof (Hne w Hhw) as E. assert (Hh2 : has w st2 = true) by (rewrite Hhas2 by exact E; exact Hhw). destruct (K3 w E Hh2) as [B C]. split; [ exact B | ].
        unfold st2 in C. rewrite names_put_other in C by exact E. exact C. }
      split; [ exact (keeps_trans _ _ _ _ K1 (keeps_trans _ _ _ _ K13 K4)) | ]. split.
      + intros w _ Hhw Hs. apply (complete_keeps anyone st3 st4 w I K4); [ rewrite <- Hhas4; exact Hhw | ]. rewrite Hhas4 in Hhw.
        destruct (has w st1) eqn:Es1; [ exact (complete_keeps anyone st1 st3 w I K13 Es1 (N1 w I Es1 Hs)) | exact (C3 w Hhw Es1) ].
      + split; [ intros w p Hhw Hpw; rewrite Hhas4 in *; exact (P3 w p Hhw Hpw) | ]. split.
        * intros w Hhw. rewrite Hhas4 in Hhw. destruct (Pos.eq_dec w t) as [E | E]; [ subst; exact Eo | exact (proj1 (O3 w E Hhw)) ].
        * intros _. rewrite Hhas4. exact Hh3.
    - exists (drop t st3). split; [ reflexivity | ].
      assert (Hd : forall w, has w (drop t st3) = true -> w <> t /\ has w st3 = true).
      { intros w Hhw. destruct (Pos.eq_dec w t) as [E | E]; [ subst; unfold has in Hhw; rewrite look_drop_same in Hhw; discriminate | rewrite has_drop_other in Hhw by exact E; split; assumption ]. }
      assert (K13 : keeps anyone st1 (drop t st3)).
      { intros w _ Hhw. pose proof (Hne w Hhw) as E. assert (Hh2 : has w st2 = true) by (rewrite Hhas2 by exact E; exact Hhw). destruct (K3 w E Hh2) as [B C].
        rewrite has_drop_other, names_drop_other by exact E. split; [ exact B | ]. unfold st2 in C. rewrite names_put_other in C by exact E. exact C. }
      split; [ exact (keeps_trans _ _ _ _ K1 K13) | ]. split.
      + intros w _ Hhw Hs. destruct (has w st1) eqn:Es1; [ exact (complete_keeps anyone st1 _ w I K13 Es1 (N1 w I Es1 Hs)) | ].
        destruct (Hd w Hhw) as [E Hh]. unfold complete. rewrite names_drop_other by exact E. apply (N3 w E Hh). rewrite Hhas2 by exact E. exact Es1.
      + split.
        * intros w p Hhw Hpw. destruct (Hd w Hhw) as [E Hh]. pose proof (P3 w p Hh Hpw) as Hpp. rewrite has_drop_other; [ exact Hpp | ].
          intros Ep. subst p. unfold package_of in Hpw. destruct (find_file w code) as [g | ] eqn:Eg; [ | discriminate ].
          destruct (check_of w g Eg) as [_ [_ [_ Hgo]]]. assert (Hx : tout T t = IOk tt) by (apply Hgo; unfold package_of; rewrite Eg; exact Hpw). rewrite Eo in Hx. discriminate.
        * split; [ | discriminate ]. intros w Hhw. destruct (Hd w Hhw) as [E Hh]. exact (proj1 (O3 w E Hh)).
  Qed.

  (** ** Sequences of imports *)
  Definition settled (st : modules) : Prop := with_packages st /\ fine st /\ forall w, has w st = true -> complete st w.
  Lemma settled_empty : settled [].
  Proof. split; [ intros w p H; discriminate | split; intros w H; discriminate ]. Qed.
  Lemma absent_max : forall st, absent st <= length code.
  Proof.
    intros st. unfold absent. generalize (fun f : file => negb (has (f_name f) st)) as p. generalize code as l. intros l p.
    induction l as [ | x l IH]; [ apply le_n | ]. cbn [filter length]. destruct (p x); cbn [length]; lia.
  Qed.
  Lemma import_settled : forall fuel t st, 4 * length code + 4 <= fuel -> settled st -> ours code t = true ->
    exists st', import_module h code fuel t st = (st', tout T t) /\ settled st' /\ keeps anyone st st' /\ (tout T t = IOk tt -> has t st' = true).
  Proof.
    intros fuel t st Hfu [Hp [Hf Hc]] Ho. destruct (ours_file t Ho) as [f Ef].
    destruct (import_sound fuel t f st Ef Hp Hf) as [st' [E [K [N [P [F Hh]]]]]].
    - intros _ w Hw. left. exact (Hc w Hw).
    - pose proof (absent_max st). pose proof (depth_small t). lia.
    - exists st'. split; [ exact E | ]. split; [ | split; [ exact K | exact Hh ] ]. split; [ exact P | split; [ exact F | ] ].
      intros w Hw. destruct (has w st) eqn:Es; [ exact (complete_keeps anyone st st' w I K Es (Hc w Es)) | exact (N w I Hw Es) ].
  Qed.
  Lemma import_all_settled : forall fuel l st, 4 * length code + 4 <= fuel -> settled st -> forallb (ours code) l = true ->
    exists st', import_all h code fuel l st = (st', map (tout T) l) /\ settled st' /\ keeps anyone st st' /\ (forall t, In t l -> tout T t = IOk tt -> has t st' = true).
  Proof.
    intros fuel. induction l as [ | t l IH]; intros st Hfu Hs Ho; cbn [import_all map forallb] in *.
    - exists st. split; [ reflexivity | split; [ exact Hs | split; [ apply keeps_refl | intros t [] ] ] ].
    - apply andb_prop in Ho. destruct Ho as [Ht Hl]. destruct (import_settled fuel t st Hfu Hs Ht) as [st1 [E1 [S1 [K1 H1]]]]. rewrite E1.
      destruct (IH st1 Hfu S1 Hl) as [st2 [E2 [S2 [K2 H2]]]]. rewrite E2. exists st2. split; [ reflexivity | ]. split; [ exact S2 | ]. split; [ exact (keeps_trans _ _ _ _ K1 K2) | ].
      intros x [Hx | Hx] Hok; [ subst x; exact (proj1 (K2 t I (H1 Hok))) | exact (H2 x Hx Hok) ].
  Qed.
End Sound.
