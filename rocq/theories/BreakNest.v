(** * BreakNest: overlapping breakpoints that are removed in the reverse order. *)
From Coq Require Import ZArith List Ascii Bool Lia.
From Verif Require Import PyBase PyFacts Platform CallModel MemModel MemSpec MemProofs MemProofs2 MemProofs3 MemFinal StructModel RegModel
  BreakModel BreakSpec BreakProofs.
Import ListNotations.
Open Scope Z_scope.

Section Nest.
  Context (E : penv) (K : rkernel).
  Hypothesis HE : plain E.
  Definition weak (st : bstate) : Prop :=
    b_running st = true /\ NoDup (map fst (b_dict st)) /\
    forall a id, In (a, id) (b_dict st) -> exists bp, nth_error (b_objs st) id = Some bp /\ bp_installed bp = true /\ bp_address bp = a /\ 0 < bp_size bp.
  Definition run (l : list action) (st : bstate) : bstate := fold_left (fun s a => act E K a s) l st.
  Definition same (st st' : bstate) : Prop :=
    b_dict st' = b_dict st /\ (forall i bp, nth_error (b_objs st) i = Some bp -> nth_error (b_objs st') i = Some bp) /\
    (forall x, k_byte (s_mem (b_mem st')) x = k_byte (s_mem (b_mem st)) x) /\ (forall x, k_pokable (s_mem (b_mem st')) x = k_pokable (s_mem (b_mem st)) x) /\
    (forall b m, accessible E (b_mem st) b m -> accessible E (b_mem st') b m).
  Lemma possible_app l l' : forall st, possible E K st (l ++ l') -> possible E K st l /\ possible E K (run l st) l'.
  Proof.
    induction l as [|a l IH]; intros st H; [split; [exact I|exact H]|]. destruct H as [H1 H2]. destruct (IH _ H2) as [H3 H4]. split; [split; assumption|exact H4].
  Qed.
  Lemma ddel_last (d : list (Z * nat)) a i : ~ In a (map fst d) -> ddel Z.eqb a (d ++ [(a, i)]) = d.
  Proof.
    induction d as [|[b j] d IH]; intros H; cbn; [now rewrite Z.eqb_refl|]. cbn in H.
    replace (a =? b) with false by (symmetry; apply Z.eqb_neq; intros ->; apply H; now left). rewrite IH; [reflexivity|tauto].
  Qed.
  Lemma back k k1 k2 k3 a old new : stored k a old -> zlen new = zlen old -> written k k1 a new ->
    (forall x, k_byte k2 x = k_byte k1 x) -> (forall x, k_pokable k2 x = k_pokable k1 x) -> written k2 k3 a old ->
    (forall x, k_byte k3 x = k_byte k x) /\ (forall x, k_pokable k3 x = k_pokable k x).
  Proof.
    intros S L W1 H1 H2 W2. split.
    - intros x. destruct (Z_lt_dec x a); [|destruct (Z_lt_dec x (a + zlen old))].
      + rewrite (written_outside _ _ _ _ x W2) by lia. rewrite H1. apply (written_outside _ _ _ _ x W1). lia.
      + destruct (nth_error old (Z.to_nat (x - a))) as [c|] eqn:Ec; [|apply nth_error_None in Ec; unfold zlen in *; lia].
        pose proof (written_stored _ _ _ _ W2 _ _ Ec) as A. pose proof (S _ _ Ec) as B. replace (a + Z.of_nat (Z.to_nat (x - a))) with x in A, B by lia. congruence.
      + rewrite (written_outside _ _ _ _ x W2) by lia. rewrite H1. apply (written_outside _ _ _ _ x W1). lia.
    - intros x. destruct W1 as [_ W1], W2 as [_ W2]. rewrite W2, H2. apply W1.
  Qed.
  Lemma nest n l m : bracketed n l m -> forall st, weak st -> List.length (b_objs st) = n -> possible E K st l ->
    weak (run l st) /\ List.length (b_objs (run l st)) = m /\ same st (run l st).
  Proof.
    pose proof HE as (Ho & Hb & Hp & Hfa & Hn & Hop).
    induction 1 as [n|n a size l m l' m' _ IH1 _ IH2]; intros st W L H.
    - split; [exact W|]. split; [exact L|]. split; [reflexivity|]. split; [auto|]. split; [reflexivity|]. split; [reflexivity|auto].
    - destruct H as [[Ha Hc] H]. cbn [app] in H.
      destruct (possible_app _ _ _ H) as [Q1 Q2]. cbn [possible] in Q2. destruct Q2 as [_ Q2].
      destruct (findBreakpoint a st) as [id|] eqn:Ef.
      { exfalso. destruct (find_in_spec _ _ _ _ Ef) as (a' & bp & F1 & F2 & F3). apply (Hc bp); [exists a', id; auto|exact F3]. }
      destruct (new_breakpoint_ok E Ho Hp Hfa Hn Hop Hb a size (b_mem st) Ha) as (ms & old & new & R & S1 & S2 & _ & S4 & S5 & S6).
      assert (~ In a (map fst (b_dict st))) as Hnew.
      { intros X. apply in_map_iff in X as ((a' & j) & E1 & X). cbn in E1. subst a'. destruct W as (_ & _ & W). destruct (W a j X) as (b & B1 & _ & B3 & B4).
        apply (Hc b); [exists a, j; auto|]. split; lia. }
      set (st1 := act E K (Create a size) st) in *.
      assert (st1 = with_dict (with_objs (with_mem st ms) (b_objs st ++ [BP a (break_size E size) old true])) (b_dict st ++ [(a, n)])) as E1.
      { unfold st1, act, createBreakpoint. rewrite Ef, R. cbn [fst]. rewrite L. f_equal. now apply dset_keys_new; [exact Z.eqb_eq|]. }
      assert (weak st1) as W1.
      { rewrite E1. destruct W as (W1 & W2 & W3). split; [exact W1|]. split; cbn.
        - rewrite <- (dset_keys_new Z.eqb Z.eqb_eq) by exact Hnew. apply (dset_NoDup Z.eqb Z.eqb_eq). exact W2.
        - intros b i X. apply in_app_iff in X as [X|[[= <- <-]|[]]].
          + destruct (W3 b i X) as (bp & B1 & B2). exists bp. split; [|exact B2]. rewrite nth_error_app1; [exact B1|]. apply nth_error_Some. congruence.
          + eexists. split; [rewrite nth_error_app2 by lia; rewrite L, Nat.sub_diag; reflexivity|]. cbn. split; [reflexivity|]. split; [reflexivity|]. apply Ha. }
      assert (List.length (b_objs st1) = S n) as L1 by (rewrite E1; cbn; rewrite app_length; cbn; lia).
      destruct (IH1 st1 W1 L1 Q1) as (W2 & L2 & D2 & O2 & M2 & P2 & A2). set (st2 := run l st1) in *.
      assert (nth_error (b_objs st2) n = Some (BP a (break_size E size) old true)) as N2.
      { apply O2. rewrite E1. cbn. rewrite nth_error_app2 by lia. now rewrite L, Nat.sub_diag. }
      assert (accessible E (b_mem st2) a (zlen old)) as Ac2 by (rewrite S2; apply A2; rewrite E1; cbn; now apply S6).
      destruct (write_access E Ho Hp Hfa Hn Hop Hb a old (b_mem st2) Ac2) as (m3 & X1 & X2 & X3).
      set (st3 := act E K (Remove n) st2) in *.
      assert (st3 = with_dict (with_mem (with_objs st2 (set_nth n (BP a (break_size E size) old false) (b_objs st2))) m3) (b_dict st)) as E3.
      { unfold st3, act, desinstall. rewrite N2. cbn [bp_installed negb b_running with_objs bp_address bp_old bp_size b_mem]. destruct W2 as (-> & _). rewrite X1.
        unfold removeBreakpoint. cbn [b_dict with_objs with_mem bp_address]. rewrite D2. rewrite E1. cbn [b_dict with_dict].
        assert (dmem Z.eqb a (b_dict st ++ [(a, n)]) = true) as ->.
        { unfold dmem. rewrite (dget_NoDup_In Z.eqb Z.eqb_eq a n (b_dict st ++ [(a, n)])); [reflexivity| |apply in_app_iff; right; now left].
          destruct W1 as (_ & W1 & _). rewrite E1 in W1. exact W1. }
        cbn [fst]. now rewrite ddel_last. }
      assert (forall i bp, nth_error (b_objs st) i = Some bp -> nth_error (b_objs st3) i = Some bp) as O3.
      { intros i bp X. assert (i < n)%nat as Hi by (rewrite <- L; apply nth_error_Some; congruence). rewrite E3. cbn. rewrite nth_set_nth.
        replace (i =? n)%nat with false by (symmetry; apply Nat.eqb_neq; lia). apply O2. rewrite E1. cbn. rewrite nth_error_app1 by lia. exact X. }
      destruct (back (s_mem (b_mem st)) (s_mem ms) (s_mem (b_mem st2)) (s_mem m3) a old new S1) as [M3 P3].
      { congruence. } { exact S5. } { intros x. rewrite M2, E1. reflexivity. } { intros x. rewrite P2, E1. reflexivity. } { exact X2. }
      assert (weak st3) as W3.
      { split; [rewrite E3; apply W2|]. rewrite E3 at 1. cbn [b_dict with_dict]. split; [apply W|]. intros b i X. rewrite E3 in X. cbn in X.
        destruct W as (_ & _ & W). destruct (W b i X) as (bp & B1 & B2). exists bp. split; [now apply O3|exact B2]. }
      assert (List.length (b_objs st3) = m) as L3.
      { rewrite E3. cbn. rewrite <- L2. clear. generalize (b_objs st2). intros o. revert n. induction o as [|y o IH]; intros [|n]; cbn; auto. }
      destruct (IH2 st3 W3 L3 Q2) as (W4 & L4 & D4 & O4 & M4 & P4 & A4).
      assert (run (Create a size :: l ++ Remove n :: l') st = run l' st3) as ER.
      { unfold run. cbn [fold_left]. rewrite fold_left_app. reflexivity. }
      rewrite ER. split; [exact W4|]. split; [exact L4|]. split; [|split; [|split; [|split]]].
      + rewrite D4, E3. reflexivity.
      + intros i bp X. now apply O4, O3.
      + intros x. rewrite M4, E3. cbn. apply M3.
      + intros x. rewrite P4, E3. cbn. apply P3.
      + intros b k X. apply A4. rewrite E3. cbn. apply X3, A2. rewrite E1. cbn. now apply S6.
  Qed.
End Nest.
Lemma nested E K st l m : plain E -> b_running st = true -> no_breakpoints st -> bracketed 0 l m -> possible E K st l ->
  let st' := fold_left (fun s a => act E K a s) l st in b_dict st' = [] /\
  (forall x, k_byte (s_mem (b_mem st')) x = k_byte (s_mem (b_mem st)) x) /\ (forall x, k_pokable (s_mem (b_mem st')) x = k_pokable (s_mem (b_mem st)) x).
Proof.
  intros HE Hr [Ho Hd] B H st'. destruct (nest E K HE 0 l m B st) as (_ & _ & D & _ & M & P & _); [| |exact H|].
  - split; [exact Hr|]. rewrite Hd. split; [constructor|intros a id []].
  - now rewrite Ho.
  - unfold run in *. fold st' in D, M, P. split; [now rewrite D|]. auto.
Qed.
