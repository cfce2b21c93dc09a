(** * BindProofs: bind accepts exactly the accepted arguments, and gives every parameter its value (C140). *)
From Coq Require Import List Bool PArith Arith Lia.
From Verif Require Import BindNames BindModel BindSpec.
Import ListNotations.

Section Slots.
  Context {V : Type}.
  Notation slots := (list (pname * option V)).
  Definition get {W} (a : pname) (l : list (pname * W)) : option W := match find (fun y => Pos.eqb a (fst y)) l with Some y => Some (snd y) | None => None end.

  Lemma get_cons {W} a b (x : W) l : get a ((b, x) :: l) = if Pos.eqb a b then Some x else get a l.
  Proof. unfold get. cbn [find fst]. destruct (Pos.eqb a b); reflexivity. Qed.
  Lemma get_none {W} a (l : list (pname * W)) : get a l = None <-> ~ In a (map fst l).
  Proof.
    induction l as [|[b x] l IH]; [cbn; tauto|]. rewrite get_cons. cbn [map fst In]. destruct (Pos.eqb_spec a b) as [-> | H].
    - split; [discriminate|intros H; destruct H; now left].
    - rewrite IH. split; [intros H1 [H2|H2]; [congruence|tauto]|tauto].
  Qed.
  Lemma get_in {W} a (x : W) l : get a l = Some x -> In (a, x) l.
  Proof.
    induction l as [|[b y] l IH]; [discriminate|]. rewrite get_cons. destruct (Pos.eqb_spec a b) as [-> | H]; [intros [= ->]; now left|intros H1; right; auto].
  Qed.
  Lemma get_nodup {W} a (x : W) l : NoDup (map fst l) -> In (a, x) l -> get a l = Some x.
  Proof.
    induction l as [|[b y] l IH]; [intros _ []|]. cbn [map fst]. intros HN Hin. apply NoDup_cons_iff in HN as [H1 H2]. rewrite get_cons. destruct Hin as [[= -> ->] | Hin].
    - now rewrite Pos.eqb_refl.
    - destruct (Pos.eqb_spec a b) as [-> | _]; [|auto]. destruct H1. apply (in_map fst) in Hin. exact Hin.
  Qed.
  Lemma get_app {W} a (l1 l2 : list (pname * W)) : get a (l1 ++ l2) = match get a l1 with Some x => Some x | None => get a l2 end.
  Proof. induction l1 as [|[b x] l1 IH]; [reflexivity|]. cbn [app]. rewrite !get_cons. destruct (Pos.eqb a b); [reflexivity|exact IH]. Qed.

  (** ** Positional arguments *)
  Lemma fill_rest names : forall vals : list V, snd (fill names vals) = skipn (length names) vals.
  Proof.
    induction names as [|a names IH]; intros vals; [destruct vals; reflexivity|]. destruct vals as [|v vals]; cbn [fill length skipn].
    - specialize (IH []). destruct (fill names []) as [l r]. cbn [snd] in *. rewrite IH. now destruct (length names).
    - specialize (IH vals). destruct (fill names vals) as [l r]. exact IH.
  Qed.
  Lemma fill_names names : forall vals : list V, map fst (fst (fill names vals)) = names.
  Proof.
    induction names as [|a names IH]; intros vals; [reflexivity|]. destruct vals as [|v vals]; cbn [fill].
    - specialize (IH []). destruct (fill names []) as [l r]. cbn [fst map] in *. now rewrite IH.
    - specialize (IH vals). destruct (fill names vals) as [l r]. cbn [fst map] in *. now rewrite IH.
  Qed.
  Lemma fill_nth names : forall (vals : list V) i, nth_error (fst (fill names vals)) i = match nth_error names i with Some a => Some (a, nth_error vals i) | None => None end.
  Proof.
    induction names as [|a names IH]; intros vals i; [now destruct i|]. destruct vals as [|v vals]; cbn [fill].
    - specialize (IH []). destruct (fill names []) as [l r]. destruct i as [|i]; [reflexivity|]. cbn [fst nth_error] in *. rewrite IH. now destruct (nth_error names i), i.
    - specialize (IH vals). destruct (fill names vals) as [l r]. destruct i as [|i]; [reflexivity|]. exact (IH i).
  Qed.

  (** ** Keywords *)
  Lemma put_twice a (v : V) l : put a v l = None <-> exists w, get a l = Some (Some w).
  Proof.
    induction l as [|[b x] l IH]; [split; [discriminate|intros [w H]; discriminate H]|]. cbn [put]. rewrite get_cons. destruct (Pos.eqb a b).
    - destruct x; split; intros H; try discriminate H; eauto. destruct H as [? H]. discriminate H.
    - rewrite <- IH. destruct (put a v l) as [[?|]|]; split; congruence.
  Qed.
  Lemma put_unknown a (v : V) l : put a v l = Some None <-> get a l = None.
  Proof.
    induction l as [|[b x] l IH]; [cbn; tauto|]. cbn [put]. rewrite get_cons. destruct (Pos.eqb a b).
    - destruct x; split; discriminate.
    - rewrite <- IH. destruct (put a v l) as [[?|]|]; split; congruence.
  Qed.
  Lemma put_done a (v : V) l : forall l', put a v l = Some (Some l') -> get a l = Some None /\ map fst l' = map fst l /\ forall b, get b l' = if Pos.eqb b a then Some (Some v) else get b l.
  Proof.
    induction l as [|[b x] l IH]; intros l'; [discriminate|]. cbn [put]. rewrite get_cons. destruct (Pos.eqb_spec a b) as [-> | Hab].
    - destruct x; [discriminate|]. intros [= <-]. split; [reflexivity|]. split; [reflexivity|]. intros c. rewrite !get_cons. destruct (Pos.eqb c b); reflexivity.
    - destruct (put a v l) as [[l1|]|]; try discriminate. intros [= <-]. destruct (IH l1 eq_refl) as (H1 & H2 & H3). split; [exact H1|]. split; [cbn [map]; now rewrite H2|].
      intros c. rewrite !get_cons, H3. destruct (Pos.eqb_spec c b) as [-> | _]; [|reflexivity]. destruct (Pos.eqb_spec b a); congruence.
  Qed.
  Lemma mem_in a l : mem a l = true <-> In a l.
  Proof. unfold mem. rewrite existsb_exists. split; [intros (b & H & E); apply Pos.eqb_eq in E; now subst|intros H; exists a; now rewrite Pos.eqb_refl]. Qed.

  Definition fine (kw : bool) (keys : list pname) (l : slots) (seen : list pname) : Prop :=
    NoDup keys /\ forall a, In a keys -> get a l = Some None \/ get a l = None /\ kw = true /\ ~ In a seen.
  Lemma put_all_iff kw keys : forall (l : slots) n, put_all kw keys l n <> None <-> fine kw (map fst keys) l (map fst n).
  Proof.
    induction keys as [|[a v] keys IH]; intros l n; cbn [put_all map fst].
    - split; [intros _; split; [constructor|intros ? []]|discriminate].
    - destruct (put a v l) as [[l1|]|] eqn:E.
      + pose proof (put_done _ _ _ _ E) as (H1 & H2 & H3). rewrite IH. split; intros [Hn Hk].
        * assert (~ In a (map fst keys)) as Ha. { intros H. destruct (Hk a H) as [H0|(H0 & _)]; rewrite H3, Pos.eqb_refl in H0; discriminate H0. }
          split; [now constructor|]. intros b [<- | Hb]; [now left|]. specialize (Hk b Hb). rewrite H3 in Hk. destruct (Pos.eqb_spec b a) as [Eb | _]; [subst b; contradiction|exact Hk].
        * apply NoDup_cons_iff in Hn as [Ha Hn]. split; [exact Hn|]. intros b Hb. rewrite H3. destruct (Pos.eqb_spec b a) as [-> | _]; [contradiction|]. apply Hk. now right.
      + apply put_unknown in E. destruct kw; cbn [andb].
        2:{ split; [congruence|]. intros [_ Hk]. destruct (Hk a (or_introl eq_refl)) as [H|(_ & H & _)]; congruence. }
        destruct (mem a (map fst n)) eqn:Em; cbn [negb].
        { apply mem_in in Em. split; [congruence|]. intros [_ Hk]. destruct (Hk a (or_introl eq_refl)) as [H|(_ & _ & H)]; [congruence|contradiction]. }
        assert (~ In a (map fst n)) as Hm by (rewrite <- mem_in; congruence). rewrite IH, map_app. cbn [map fst]. split; intros [Hn Hk].
        * assert (~ In a (map fst keys)) as Ha. { intros H. destruct (Hk a H) as [H0|(_ & _ & H0)]; [congruence|]. apply H0, in_app_iff. right. now left. }
          split; [now constructor|]. intros b [<- | Hb]; [now right|]. destruct (Hk b Hb) as [H|(Hx & Hy & Hz)]; [now left|right]. rewrite in_app_iff in Hz. tauto.
        * apply NoDup_cons_iff in Hn as [Ha Hn]. split; [exact Hn|]. intros b Hb. destruct (Hk b (or_intror Hb)) as [H|(Hx & Hy & Hz)]; [now left|right]. split; [exact Hx|]. split; [exact Hy|].
          rewrite in_app_iff. intros [H|[<- | []]]; contradiction.
      + apply put_twice in E as [w E]. split; [congruence|]. intros [_ Hk]. destruct (Hk a (or_introl eq_refl)) as [H|(H & _)]; congruence.
  Qed.
  Lemma put_all_done kw keys : forall (l l' : slots) n n', put_all kw keys l n = Some (l', n') ->
    map fst l' = map fst l /\ (forall b, get b l' = match get b l with Some None => Some (get b keys) | r => r end) /\ n' = n ++ filter (fun y => negb (mem (fst y) (map fst l))) keys.
  Proof.
    induction keys as [|[a v] keys IH]; intros l l' n n'; cbn [put_all].
    - intros [= <- <-]. split; [reflexivity|]. split; [|now rewrite app_nil_r]. intros b. destruct (get b l) as [[?|]|]; reflexivity.
    - intros E0. assert (put_all kw ((a, v) :: keys) l n <> None) as Hf by (cbn [put_all]; congruence). apply put_all_iff in Hf as [Hn _]. cbn [map fst] in Hn. apply NoDup_cons_iff in Hn as [Ha _].
      apply get_none in Ha. revert E0. destruct (put a v l) as [[l1|]|] eqn:E; [| |discriminate].
      + apply put_done in E as (H1 & H2 & H3). intros H. apply IH in H as (H4 & H5 & ->). rewrite H2 in H4. split; [exact H4|]. split.
        * intros b. rewrite H5, H3. rewrite get_cons. destruct (Pos.eqb_spec b a) as [-> | _]; [now rewrite H1|reflexivity].
        * cbn [filter fst]. assert (mem a (map fst l) = true) as ->; [|cbn [negb]; now rewrite H2]. apply mem_in. destruct (in_dec Pos.eq_dec a (map fst l)) as [|Hx]; [assumption|]. apply get_none in Hx. congruence.
      + apply put_unknown in E. destruct (kw && negb (mem a (map fst n))); [|discriminate]. intros H. apply IH in H as (H4 & H5 & ->). split; [exact H4|]. split.
        * intros b. rewrite H5, get_cons. destruct (Pos.eqb_spec b a) as [-> | _]; [now rewrite E|reflexivity].
        * cbn [filter fst]. assert (mem a (map fst l) = false) as ->. { apply get_none in E. destruct (mem a (map fst l)) eqn:Em; [|reflexivity]. apply mem_in in Em. contradiction. }
          cbn [negb]. now rewrite <- app_assoc.
  Qed.

  (** ** The whole call *)
  Context (s : signature) (Hs : well_formed s) (vals : list V).
  Definition start : slots := fst (fill (s_args s) vals) ++ map (fun x => (fst x, None)) (s_only s).
  Lemma start_names : map fst start = s_args s ++ map fst (s_only s).
  Proof. unfold start. rewrite map_app, fill_names, map_map. reflexivity. Qed.
  Lemma start_nodup : NoDup (map fst start).
  Proof. rewrite start_names. exact (proj1 Hs). Qed.
  Lemma start_arg i a : nth_error (s_args s) i = Some a -> get a start = Some (nth_error vals i).
  Proof.
    intros H. apply get_nodup; [exact start_nodup|]. unfold start. apply in_app_iff. left. apply nth_error_In with i. rewrite fill_nth, H. reflexivity.
  Qed.
  Lemma start_only a : In a (map fst (s_only s)) -> get a start = Some None.
  Proof. intros H. apply get_nodup; [exact start_nodup|]. unfold start. apply in_app_iff. right. apply in_map_iff in H as (y & <- & H). apply in_map_iff. eauto. Qed.
  Lemma start_unknown a : get a start = None <-> ~ parameter s a.
  Proof. rewrite get_none, start_names, in_app_iff. unfold parameter. tauto. Qed.
  Lemma only_arg i a : nth_error (s_args s) i = Some a -> ~ In a (map fst (s_only s)).
  Proof. intros H H1. destruct Hs as [HN _]. apply nth_error_In in H. apply in_split in H as (l1 & l2 & E). rewrite E, <- app_assoc in HN. cbn [app] in HN. apply NoDup_remove_2 in HN. apply HN. rewrite !in_app_iff. auto. Qed.
  Lemma arg_once i j a : nth_error (s_args s) i = Some a -> nth_error (s_args s) j = Some a -> i = j.
  Proof.
    intros H1 H2. destruct Hs as [HN _]. apply (proj1 (NoDup_nth_error _) HN); [rewrite app_length; apply Nat.lt_lt_add_r, nth_error_Some; congruence|].
    rewrite !nth_error_app1 by (apply nth_error_Some; congruence). congruence.
  Qed.
  (** A parameter without a positional value *)
  Lemma start_open a : get a start = Some None <-> parameter s a /\ forall i, nth_error (s_args s) i = Some a -> length vals <= i.
  Proof.
    split.
    - intros H. split; [destruct (in_dec Pos.eq_dec a (s_args s ++ map fst (s_only s))) as [Hi|Hi]; [now apply in_app_iff in Hi|]; rewrite <- start_names in Hi; apply get_none in Hi; congruence|].
      intros i Hi. rewrite (start_arg i a Hi) in H. apply nth_error_None. congruence.
    - intros [[H|H] Hi]; [|now apply start_only]. apply In_nth_error in H as [i H]. rewrite (start_arg i a H). f_equal. apply nth_error_None. auto.
  Qed.
  Lemma nth_firstn {W} (l : list W) : forall k i, i < k -> nth_error (firstn k l) i = nth_error l i.
  Proof. induction l as [|x l IH]; intros [|k] i H; try lia; [reflexivity|]. destruct i as [|i]; [reflexivity|]. cbn [firstn nth_error]. apply IH. lia. Qed.
  Lemma required_needed a : In a (required s) <-> needed s a.
  Proof.
    unfold required, needed. rewrite in_app_iff. split; intros [H|H].
    - left. apply In_nth_error in H as [i H]. exists i. assert (i < length (firstn (length (s_args s) - s_defaults s) (s_args s))) as Hl by (apply nth_error_Some; congruence).
      rewrite firstn_length in Hl. split; [|lia]. rewrite nth_firstn in H by lia. exact H.
    - right. apply in_map_iff in H as ([b x] & <- & H). apply filter_In in H as [H E]. cbn [snd fst] in *. now destruct x.
    - left. destruct H as (i & H & Hi). apply nth_error_In with i. rewrite nth_firstn by lia. exact H.
    - right. apply in_map_iff. exists (a, false). split; [reflexivity|]. apply filter_In. auto.
  Qed.
  Lemma given_get (l : slots) a : NoDup (map fst l) -> (given l a = true <-> exists w, get a l = Some (Some w)).
  Proof.
    intros HN. unfold given. rewrite existsb_exists. split.
    - intros ([b [w|]] & H & E); cbn [fst snd] in E; apply andb_prop in E as [E1 E2]; [|discriminate]. apply Pos.eqb_eq in E1 as ->. exists w. now apply get_nodup.
    - intros [w H]. exists (a, Some w). split; [now apply get_in|]. cbn [fst snd]. now rewrite Pos.eqb_refl.
  Qed.
  Lemma key_in (keys : list (pname * V)) a : In a (map fst keys) <-> exists v, get a keys = Some v.
  Proof. destruct (get a keys) as [v|] eqn:E; [|apply get_none in E; split; [tauto|intros [? ?]; discriminate]]. split; [eauto|]. intros _. apply get_in in E. now apply (in_map fst) in E. Qed.

  Lemma bind_unfold keys : bind s vals keys = match put_all (s_kw s) keys start [] with None => None | Some (l, n) =>
    if negb (s_var s) && negb (length (skipn (length (s_args s)) vals) =? 0) then None else if forallb (given l) (required s) then Some (Frame l (skipn (length (s_args s)) vals) n) else None end.
  Proof. unfold bind, start. rewrite <- fill_rest. destruct (fill (s_args s) vals) as [l r]. reflexivity. Qed.

  Lemma bind_iff keys : bind s vals keys <> None <-> accepted s (length vals) (map fst keys).
  Proof.
    rewrite bind_unfold. split.
    - intros H. destruct (put_all (s_kw s) keys start []) as [[l n]|] eqn:E; [|congruence].
      assert (put_all (s_kw s) keys start [] <> None) as Hf by congruence. apply put_all_iff in Hf as [Hn Hk]. apply put_all_done in E as (H1 & H2 & _).
      destruct (negb (s_var s) && _) eqn:Ev; [congruence|]. destruct (forallb (given l) (required s)) eqn:Er; [|congruence]. constructor.
      + intros Hv. rewrite Hv in Ev. cbn [negb andb] in Ev. apply negb_false_iff, Nat.eqb_eq in Ev. rewrite skipn_length in Ev. lia.
      + exact Hn.
      + intros i a Ha Hi Hin. specialize (Hk a Hin). rewrite (start_arg i a Ha) in Hk. destruct (nth_error vals i) eqn:Ei; [|apply nth_error_None in Ei; lia]. destruct Hk as [Hk|(Hk & _)]; discriminate Hk.
      + intros a Hin Hkw. destruct (Hk a Hin) as [Hg|(_ & Hg & _)]; [now apply start_open in Hg|congruence].
      + intros a Ha. apply required_needed in Ha. rewrite forallb_forall in Er. specialize (Er a Ha). apply given_get in Er as [w Hw]; [|rewrite H1; exact start_nodup]. rewrite H2 in Hw.
        destruct (get a start) as [[w'|]|] eqn:Eg; [| |discriminate].
        * left. apply get_in in Eg. unfold start in Eg. apply in_app_iff in Eg as [Eg|Eg]; [|apply in_map_iff in Eg as (? & [=] & _)]. apply In_nth_error in Eg as [i Eg]. rewrite fill_nth in Eg.
          destruct (nth_error (s_args s) i) as [b|] eqn:Eb; [|discriminate]. injection Eg as -> Eg. exists i. split; [exact Eb|]. apply nth_error_Some. congruence.
        * right. injection Hw as Hw. apply key_in. eauto.
    - intros [Hv Hn Ht Hk Hr]. destruct (put_all (s_kw s) keys start []) as [[l n]|] eqn:E.
      + apply put_all_done in E as (H1 & H2 & _). destruct (negb (s_var s) && _) eqn:Ev.
        { apply andb_prop in Ev as [Ev El]. apply negb_true_iff in Ev, El. apply Nat.eqb_neq in El. rewrite skipn_length in El. specialize (Hv Ev). lia. }
        assert (forallb (given l) (required s) = true) as ->; [|discriminate]. apply forallb_forall. intros a Ha. apply given_get; [rewrite H1; exact start_nodup|]. rewrite H2.
        apply required_needed in Ha. destruct (Hr a Ha) as [(i & Hi & Hl)|Hin].
        * rewrite (start_arg i a Hi). destruct (nth_error vals i) eqn:Ei; [eauto|]. apply nth_error_None in Ei. lia.
        * destruct (get a start) as [[w|]|] eqn:Eg; [eauto| |].
          -- apply key_in in Hin as [v ->]. eauto.
          -- apply start_unknown in Eg. destruct Eg. destruct Ha as [(i & Hi & _)|Ho]; [left; eapply nth_error_In; eauto|right]. now apply (in_map fst) in Ho.
      + exfalso. apply (proj2 (put_all_iff (s_kw s) keys start [])); [|exact E]. split; [exact Hn|]. intros a Ha. destruct (get a start) as [[w|]|] eqn:Eg; [|now left|].
        * exfalso. apply get_in in Eg. unfold start in Eg. apply in_app_iff in Eg as [Eg|Eg]; [|apply in_map_iff in Eg as (? & [=] & _)]. apply In_nth_error in Eg as [i Eg]. rewrite fill_nth in Eg.
          destruct (nth_error (s_args s) i) as [b|] eqn:Eb; [|discriminate]. injection Eg as -> Eg. apply (Ht i a Eb); [apply nth_error_Some; congruence|exact Ha].
        * right. split; [reflexivity|]. split; [|cbn; tauto]. destruct (s_kw s) eqn:Ek; [reflexivity|]. apply start_unknown in Eg. destruct Eg. auto.
  Qed.
  Lemma bind_values keys f : bind s vals keys = Some f ->
    map fst (f_slots f) = s_args s ++ map fst (s_only s) /\ (forall a x, In (a, x) (f_slots f) -> value_of s vals keys a x) /\
    f_rest f = skipn (length (s_args s)) vals /\ f_named f = filter (fun y => negb (mem (fst y) (s_args s ++ map fst (s_only s)))) keys.
  Proof.
    rewrite bind_unfold. intros H. destruct (put_all (s_kw s) keys start []) as [[l n]|] eqn:E; [|discriminate]. apply put_all_done in E as (H1 & H2 & ->).
    destruct (negb (s_var s) && _); [discriminate|]. destruct (forallb (given l) (required s)); [|discriminate]. injection H as <-. cbn [f_slots f_rest f_named]. rewrite start_names in *.
    split; [exact H1|]. split; [|auto]. intros a x Hin. apply get_nodup in Hin; [|rewrite H1; exact (proj1 Hs)]. rewrite H2 in Hin. destruct (get a start) as [[w|]|] eqn:Eg; [| |discriminate].
    - injection Hin as <-. left. apply get_in in Eg. unfold start in Eg. apply in_app_iff in Eg as [Eg|Eg]; [|apply in_map_iff in Eg as (? & [=] & _)]. apply In_nth_error in Eg as [i Eg]. rewrite fill_nth in Eg.
      destruct (nth_error (s_args s) i) as [b|] eqn:Eb; [|discriminate]. injection Eg as -> Eg. eauto.
    - right. apply start_open in Eg as [_ Eg]. injection Hin as <-. destruct (get a keys) as [v|] eqn:Ek.
      + left. split; [exact Eg|]. exists v. split; [now apply get_in|reflexivity].
      + right. split; [exact Eg|]. split; [now apply get_none|reflexivity].
  Qed.
End Slots.
