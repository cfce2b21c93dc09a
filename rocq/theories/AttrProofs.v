(** * AttrProofs: the decision procedure of AttrCheck.v is sound. *)
From Coq Require Import List Bool PArith.
From Verif Require Import AttrNames AttrModel AttrCode AttrSpec AttrCheck.
Import ListNotations.

Lemma mem_In : forall a l, mem a l = true <-> In a l.
Proof.
  intros a l. unfold mem. rewrite existsb_exists. split.
  - intros (x & Hx & E). apply Pos.eqb_eq in E. subst. exact Hx.
  - intros H. exists a. split; [ exact H | apply Pos.eqb_refl ].
Qed.
Lemma subset_spec : forall a b, subset a b = true <-> incl a b.
Proof.
  intros a b. unfold subset, incl. rewrite forallb_forall. split; intros H x Hx; apply mem_In; apply H; exact Hx.
Qed.
Lemma value_In : forall k n b, value k n = Some b -> In (n, b) k.
Proof.
  intros k n b. unfold value. destruct (find (fun x => Pos.eqb (fst x) n) k) as [ [m v] | ] eqn:E; [ | discriminate ]. intros H. injection H as <-.
  apply find_some in E as [H E]. cbn in E. apply Pos.eqb_eq in E. subst. exact H.
Qed.
Lemma keval_sound : forall k flags e b, agrees k flags -> keval k e = Some b -> feval flags e = b.
Proof.
  intros k flags e b A. revert b. induction e; cbn; intros r H.
  - congruence.
  - apply A. apply value_In. exact H.
  - destruct (keval k e); [ | discriminate ]. injection H as <-. rewrite (IHe _ eq_refl). reflexivity.
  - destruct (keval k e1) as [ [] | ], (keval k e2) as [ [] | ]; try discriminate; injection H as <-;
      rewrite ?(IHe1 _ eq_refl), ?(IHe2 _ eq_refl), ?andb_false_r; reflexivity.
  - destruct (keval k e1) as [ [] | ], (keval k e2) as [ [] | ]; try discriminate; injection H as <-;
      rewrite ?(IHe1 _ eq_refl), ?(IHe2 _ eq_refl), ?orb_true_r; reflexivity.
Qed.
Lemma agrees_self : forall k flags, agrees k flags -> agrees k (to_flags k).
Proof.
  intros k flags A n b H. unfold to_flags. destruct (value k n) eqn:E.
  - apply value_In in E. rewrite <- (A _ _ E). apply A. exact H.
  - exfalso. unfold value in E. destruct (find (fun x => Pos.eqb (fst x) n) k) eqn:F; [ discriminate | ]. apply (find_none _ _ F) in H. cbn in H. rewrite Pos.eqb_refl in H. discriminate.
Qed.
Lemma members_same : forall k flags table c, agrees k flags -> decided k table c = true -> members flags table c = members (to_flags k) table c.
Proof.
  intros k flags table c A. unfold decided, members. generalize (flat_map c_members (parents table c)). intros l. induction l as [ | [e x] l IH ]; [ reflexivity | ].
  cbn [forallb filter fst]. intros H. apply andb_true_iff in H as [H D].
  destruct (keval k e) eqn:E; [ | discriminate ]. rewrite (keval_sound _ _ _ _ A E), (keval_sound _ _ _ _ (agrees_self _ _ A) E).
  destruct b; cbn [map]; rewrite (IH D); reflexivity.
Qed.
Lemma method_same : forall k flags table c m, agrees k flags -> decided k table c = true -> method flags table c m = method (to_flags k) table c m.
Proof. intros. unfold method. rewrite (members_same k flags) by assumption. reflexivity. Qed.
Lemma there_same : forall k flags table c a e, agrees k flags -> decided k table c = true -> there flags table c a e = there (to_flags k) table c a e.
Proof. intros. unfold there. rewrite (members_same k flags) by assumption. reflexivity. Qed.
Lemma there_incl : forall flags table c a e e1, incl e e1 -> there flags table c a e = true -> there flags table c a e1 = true.
Proof.
  unfold there. intros flags table c a e e1 I H. apply orb_true_iff in H as [H | H]; apply orb_true_iff; [ left | right; exact H ].
  apply mem_In. apply I. apply mem_In. exact H.
Qed.
(** Attributes are never removed *)
Lemma run_grows : forall flags table c s e o, run flags table c s e o -> forall e1, attrs_of o = Some e1 -> incl e e1.
Proof.
  intros flags table c s e o H. induction H; intros x X; cbn in X; try discriminate X; try (injection X as <-; apply incl_refl);
    try (apply IHrun; exact X); try (eapply incl_tran; [ apply IHrun1; reflexivity | apply IHrun2; exact X ]).
  - injection X as <-. apply incl_tl, incl_refl.
  - apply IHrun. destruct o; cbn in *; exact X.
  - apply IHrun. destruct o; cbn in *; exact X.
  - eapply incl_tran; [ apply IHrun1 | apply IHrun2; exact X ]. destruct o1; cbn in *; congruence.
  - eapply incl_tran; [ apply IHrun1; eassumption | ]. apply IHrun2. destruct o; cbn in *; try discriminate; injection X as <-; reflexivity.
  - eapply incl_tran; [ apply IHrun1; eassumption | apply IHrun2; exact X ].
Qed.
Lemma common_l : forall a b r x, common (Some a) b = r -> r = Some x -> incl x a.
Proof.
  intros a b r x <- H. destruct b; cbn in H; injection H as <-; [ | apply incl_refl ].
  intros y Hy. apply filter_In in Hy as [Hy _]. exact Hy.
Qed.
Lemma common_Some_l : forall a b, exists x, common (Some a) b = Some x /\ incl x a.
Proof.
  intros a b. destruct b; cbn; eexists; split; try reflexivity; [ | apply incl_refl ]. intros y Hy. apply filter_In in Hy as [Hy _]. exact Hy.
Qed.
Lemma common_Some_r : forall a b, exists x, common a (Some b) = Some x /\ incl x b.
Proof.
  intros a b. destruct a; cbn; eexists; split; try reflexivity; [ | apply incl_refl ]. intros y Hy. apply filter_In in Hy as [_ Hy]. apply mem_In. exact Hy.
Qed.

Section Sound.
  Context (k : known) (flags : attr -> bool) (table : list class) (contracts : list contract) (c : attr).
  Context (A : agrees k flags) (C : check_class k table contracts c = true).

  (** What [check] promises about an outcome *)
  Definition promised (post : env) (r : option env) (o : outcome) : Prop :=
    match o with
    | Done e => exists e0, r = Some e0 /\ incl e0 e
    | Return e => incl post e
    | Raise _ | Break _ => True
    | Missing _ => False
    end.
  Lemma decided_c : decided k table c = true.
  Proof. unfold check_class in C. apply andb_true_iff in C. tauto. Qed.
  Lemma contract_checked : forall s m pre post, contract_of contracts s m = Some (pre, post) -> check_contract k table contracts c (s, m, (pre, post)) = true.
  Proof.
    intros s m pre post H. unfold contract_of in H. match type of H with option_map _ ?x = _ => destruct x as [ [ [s' m'] pp ] | ] eqn:F; [ | discriminate H ] end.
    cbn in H. injection H as ->. apply find_some in F as [I F]. cbn in F. apply andb_true_iff in F as [F1 F2]. apply Pos.eqb_eq in F1, F2. subst.
    unfold check_class in C. apply andb_true_iff in C as [_ D]. rewrite forallb_forall in D. exact (D _ I).
  Qed.
  Lemma promised_common_l : forall post a b o, promised post a o -> promised post (common a b) o.
  Proof.
    intros post a b o H. destruct o; cbn in *; try exact H. destruct H as (e0 & -> & I). destruct (common_Some_l e0 b) as (x & E & Ix).
    exists x. split; [ exact E | eapply incl_tran; eassumption ].
  Qed.
  Lemma promised_common_r : forall post a b o, promised post b o -> promised post (common a b) o.
  Proof.
    intros post a b o H. destruct o; cbn in *; try exact H. destruct H as (e0 & -> & I). destruct (common_Some_r a e0) as (x & E & Ix).
    exists x. split; [ exact E | eapply incl_tran; eassumption ].
  Qed.
  Definition sound (s : stmt) (e : env) (o : outcome) : Prop :=
    forall post e0 r, incl e0 e -> check k table contracts c post s e0 = Some r -> promised post r o.
  Lemma call_sound : forall s m body e o, method flags table s m = Some body -> run flags table c body e o -> sound body e o ->
    forall post e0 r, incl e0 e -> check_call k table contracts s m e0 = Some r -> promised post r (leave o).
  Proof.
    intros s m body e o M R S post e0 r I. unfold check_call. destruct (decided k table s) eqn:D; [ | discriminate ].
    rewrite (method_same k flags _ _ _ A D) in M. rewrite M.
    destruct (contract_of contracts s m) as [ [pre pst] | ] eqn:K; [ | discriminate ].
    destruct (subset pre e0) eqn:U; [ | discriminate ]. intros H. injection H as <-.
    apply contract_checked in K. unfold check_contract in K. rewrite D, M in K. cbn [andb] in K.
    destruct (check k table contracts c pst body pre) as [ r | ] eqn:B; [ | discriminate ].
    apply subset_spec in U. specialize (S pst pre r (incl_tran U I) B).
    assert (G := run_grows _ _ _ _ _ _ R).
    destruct o; cbn in *; try exact S.
    - destruct S as (x & -> & Ix). apply subset_spec in K. exists (pst ++ e0). split; [ reflexivity | ].
      apply incl_app; [ exact (incl_tran K Ix) | exact (incl_tran I (G _ eq_refl)) ].
    - exists (pst ++ e0). split; [ reflexivity | ]. apply incl_app; [ exact S | exact (incl_tran I (G _ eq_refl)) ].
  Qed.
  Lemma value_sound : forall s m e post e0 r, method flags table s m = None -> incl e0 e -> check_call k table contracts s m e0 = Some r -> promised post r (Done e).
  Proof.
    intros s m e post e0 r M I. unfold check_call. destruct (decided k table s) eqn:D; [ | discriminate ].
    rewrite (method_same k flags _ _ _ A D) in M. rewrite M. intros H. injection H as <-. exists e0. split; [ reflexivity | exact I ].
  Qed.
  Lemma promised_seq : forall post r1 r2 o, is_done o = false -> promised post r1 o -> promised post r2 o.
  Proof. intros post r1 r2 o D H. destruct o; cbn in *; try discriminate; exact H. Qed.
  Theorem check_sound : forall s e o, run flags table c s e o -> sound s e o.
  Proof.
    intros s e o H. induction H; intros post e0 r I K; cbn [check] in K.
    - injection K as <-. exists e0. auto.
    - destruct (check k table contracts c post s e0) as [ [x | ] | ] eqn:E; [ | | discriminate ].
      + destruct (IHrun1 post e0 _ I E) as (y & Y & Iy). injection Y as <-. exact (IHrun2 post x r Iy K).
      + destruct (IHrun1 post e0 _ I E) as (y & Y & _). discriminate Y.
    - destruct (check k table contracts c post s e0) as [ x | ] eqn:E; [ | discriminate ]. exact (promised_seq _ _ _ _ H0 (IHrun post e0 _ I E)).
    - rewrite <- (there_same k flags) in K by (exact A || exact decided_c). destruct (there flags table c a e0); [ | discriminate ]. injection K as <-. exists e0. auto.
    - rewrite <- (there_same k flags) in K by (exact A || exact decided_c). destruct (there flags table c a e0) eqn:T; [ | discriminate ].
      rewrite (there_incl _ _ _ _ _ _ I T) in H. discriminate.
    - injection K as <-. eexists. split; [ reflexivity | ]. destruct (mem a e0); [ apply incl_tl; exact I | ].
      intros x [-> | X]; [ left; reflexivity | right; apply I; exact X ].
    - exact (call_sound _ _ _ _ _ H H0 IHrun post e0 r I K).
    - exact (value_sound _ _ _ post _ _ H I K).
    - exact Logic.I.
    - exact (call_sound _ _ _ _ _ H H0 IHrun post e0 r I K).
    - exact (value_sound _ _ _ post _ _ H I K).
    - exact Logic.I.
    - injection K as <-. exists e0. auto.
    - exact Logic.I.
    - destruct (keval k b) as [ v | ] eqn:E.
      + rewrite (keval_sound _ _ _ _ A E) in IHrun. destruct v; exact (IHrun post e0 r I K).
      + destruct (check k table contracts c post yes e0) as [ a1 | ] eqn:E1; [ | discriminate ].
        destruct (check k table contracts c post no e0) as [ a2 | ] eqn:E2; [ | discriminate ]. injection K as <-.
        destruct (feval flags b); [ apply promised_common_l | apply promised_common_r ]; eapply IHrun; eassumption.
    - destruct (check k table contracts c post s e0) as [ a1 | ] eqn:E1; [ | discriminate ].
      destruct (check k table contracts c post t e0) as [ a2 | ] eqn:E2; [ | discriminate ]. injection K as <-. apply promised_common_l. eapply IHrun; eassumption.
    - destruct (check k table contracts c post s e0) as [ a1 | ] eqn:E1; [ | discriminate ].
      destruct (check k table contracts c post t e0) as [ a2 | ] eqn:E2; [ | discriminate ]. injection K as <-. apply promised_common_r. eapply IHrun; eassumption.
    - destruct (check k table contracts c post s e0); [ | discriminate ]. injection K as <-. exists e0. auto.
    - apply (IHrun2 post e0 r); [ | exact K ]. eapply incl_tran; [ exact I | ]. eapply run_grows; [ exact H | ]. destruct o1; cbn in *; try discriminate; exact H0.
    - destruct (check k table contracts c post s e0) as [ a1 | ] eqn:E1; [ | discriminate ]. injection K as <-.
      specialize (IHrun post e0 _ I E1). destruct o; cbn in *; try discriminate; exact IHrun.
    - destruct (check k table contracts c post s e0) as [ a1 | ] eqn:E1; [ | discriminate ].
      destruct (check k table contracts c post h e0) as [ a2 | ] eqn:E2; [ | discriminate ]. injection K as <-. apply promised_common_l. eapply IHrun; eassumption.
    - destruct (check k table contracts c post s e0) as [ a1 | ] eqn:E1; [ | discriminate ].
      destruct (check k table contracts c post h e0) as [ a2 | ] eqn:E2; [ | discriminate ]. injection K as <-. apply promised_common_r.
      eapply IHrun2; [ | exact E2 ]. eapply incl_tran; [ exact I | ]. eapply run_grows; [ exact H | reflexivity ].
    - destruct (check k table contracts c post s e0) as [ a1 | ] eqn:E1; [ | discriminate ].
      destruct (check k table contracts c post l e0) as [ [ a2 | ] | ] eqn:E2; try discriminate. injection K as <-.
      specialize (IHrun1 post e0 _ I E1). assert (G := run_grows _ _ _ _ _ _ H1 _ eq_refl).
      destruct o; cbn in *; try discriminate H0; injection H0 as <-; try exact (incl_tran IHrun1 G); try exact Logic.I.
      destruct IHrun1 as (x & -> & Ix). exists x. split; [ reflexivity | exact (incl_tran Ix G) ].
    - destruct (check k table contracts c post s e0) as [ a1 | ] eqn:E1; [ | discriminate ].
      destruct (check k table contracts c post l e0) as [ [ a2 | ] | ] eqn:E2; try discriminate. injection K as <-.
      eapply promised_seq; [ exact H2 | ]. eapply IHrun2; [ | exact E2 ]. eapply incl_tran; [ exact I | ]. eapply run_grows; eassumption.
    - destruct (check k table contracts c post s e0) as [ a1 | ] eqn:E1; [ | discriminate ]. exact (IHrun post e0 _ I E1).
    - destruct (subset post e0) eqn:U; [ | discriminate ]. apply subset_spec in U. exact (incl_tran U I).
    - exact Logic.I.
    - exact Logic.I.
  Qed.
End Sound.
