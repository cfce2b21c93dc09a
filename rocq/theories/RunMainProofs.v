From Coq Require Import ZArith List Ascii String Bool Lia.
From Verif Require Import PyBase PyFacts RunModel RunMainModel RunMainSpec.
Import ListNotations.
Open Scope Z_scope.

Lemma leaks_all tests g leaks rest : find_leaks tests g = (leaks, rest) ->
  g ++ made_by tests = reported leaks ++ rest.
Proof.
  revert g leaks rest. induction tests as [|t tests IH]; intros g leaks rest H; cbn in H.
  - injection H as <- <-. cbn. apply app_nil_r.
  - destruct (t_success t && _) eqn:E in H.
    + destruct (find_leaks tests []) as [l r] eqn:F. injection H as <- <-. apply IH in F. cbn in F |- *.
      unfold reported in *. cbn. rewrite <- !app_assoc. cbn. rewrite <- F. reflexivity.
    + apply IH in H. cbn. now rewrite <- H, app_assoc.
Qed.
Lemma leaks_successful tests g leaks rest : find_leaks tests g = (leaks, rest) ->
  forall name l, In (name, l) leaks -> l <> [] /\ exists t, In t tests /\ t_name t = name /\ t_success t = true.
Proof.
  revert g leaks rest. induction tests as [|t tests IH]; intros g leaks rest H name l Hin; cbn in H.
  - injection H as <- <-. destruct Hin.
  - destruct (t_success t && _) eqn:E in H.
    + destruct (find_leaks tests []) as [l' r] eqn:F. injection H as <- <-. apply andb_true_iff in E as [E1 E2].
      destruct Hin as [[= <- <-]|Hin].
      * split; [intros E; rewrite E in E2; discriminate|]. exists t. split; [now left|]. now split.
      * destruct (IH _ _ _ F name l Hin) as (A & t' & B & C). split; [exact A|]. exists t'. split; [now right|exact C].
    + destruct (IH _ _ _ H name l Hin) as (A & t' & B & C). split; [exact A|]. exists t'. split; [now right|exact C].
Qed.
Lemma leaks_own tests : (forall t, In t tests -> t_success t = true) -> find_leaks tests [] = (flat_map own_leak tests, []).
Proof.
  induction tests as [|t tests IH]; intros H; [reflexivity|]. cbn. rewrite (H t (or_introl eq_refl)). cbn [andb].
  unfold own_leak at 1. destruct (t_garbage t) eqn:E; rewrite IH by (intros x Hx; apply H; now right); reflexivity.
Qed.
(** what is not reported was made after the last successful test *)
Lemma leaks_left tests leaks rest : find_leaks tests [] = (leaks, rest) ->
  exists before after, tests = before ++ after /\ (forall t, In t after -> t_success t = false) /\ rest = made_by after /\
    match rev before with [] => True | t :: _ => t_success t = true end.
Proof.
  enough (H : forall g, find_leaks tests g = (leaks, rest) ->
    (exists before t after, tests = before ++ t :: after /\ t_success t = true /\ (forall t, In t after -> t_success t = false) /\ rest = made_by after) \/
    (forall t, In t tests -> t_success t = false) /\ rest = g ++ made_by tests).
  { intros Hf. destruct (H [] Hf) as [(b & t & a & E1 & E2 & E3 & E4)|[E1 E2]].
    - exists (b ++ [t]), a. rewrite <- app_assoc. split; [exact E1|]. split; [exact E3|]. split; [exact E4|]. now rewrite rev_unit.
    - exists [], tests. now repeat split. }
  revert leaks rest. induction tests as [|t tests IH]; intros leaks rest g H; cbn in H.
  - injection H as <- <-. right. split; [intros ? []|]. cbn. now rewrite app_nil_r.
  - destruct (t_success t) eqn:Es; cbn [andb] in H.
    + left.
      assert (G : exists l, find_leaks tests [] = (l, rest) \/ (g ++ t_garbage t = [] /\ find_leaks tests (g ++ t_garbage t) = (l, rest))).
      { destruct (g ++ t_garbage t) as [|x y]; [exists leaks; now left|]. destruct (find_leaks tests []) as [l r] eqn:F. injection H as _ ->. exists l. now left. }
      assert (G' : exists l, find_leaks tests [] = (l, rest)) by (destruct G as [l [G|[E G]]]; exists l; [exact G|now rewrite E in G]).
      destruct G' as [l G']. destruct (IH _ _ _ G') as [(b & u & a & E1 & E2)|[E1 E2]].
      * exists (t :: b), u, a. split; [cbn; now rewrite E1|exact E2].
      * exists [], t, tests. now repeat split.
    + destruct (IH _ _ _ H) as [(b & u & a & E1 & E2)|[E1 E2]].
      * left. exists (t :: b), u, a. split; [cbn; now rewrite E1|exact E2].
      * right. split; [intros x [<-|Hx]; auto|]. cbn. now rewrite app_assoc.
Qed.

Lemma runs_app a b : runs (a ++ b) = runs a ++ runs b.
Proof. induction a as [|[] a IH]; cbn; congruence. Qed.
Section M.
  Context (loader : text -> text -> load) (tests : text * text -> res (list text)) (search : text -> text -> bool).
  Context (run : nat -> list text -> bool).
  Lemma forever_runs rounds : forall n l v a b acts f, forever run rounds n (Ok l) (ARun v a b) = (acts, f) ->
    (f = Endless /\ runs acts = repeat l rounds /\ (forall i, (i < rounds)%nat -> run (n + i)%nat l = true)) \/
    (f = Raised (ESystemExit 1) /\ exists k, (k < rounds)%nat /\ runs acts = repeat l (S k) /\ run (n + k)%nat l = false /\ (forall i, (i < k)%nat -> run (n + i)%nat l = true)).
  Proof.
    induction rounds as [|r IH]; intros n l v a b acts f H; cbn in H.
    - injection H as <- <-. left. split; [reflexivity|]. split; [reflexivity|]. lia.
    - destruct (run n l) eqn:E.
      + destruct (forever run r (S n) (Ok l) (ARun v a b)) as [acts' f'] eqn:F. injection H as <- <-.
        destruct (IH _ _ _ _ _ _ _ F) as [(A & B & C)|(A & k & K & B & C & G)].
        * left. split; [exact A|]. split; [cbn; now rewrite B|]. intros [|i] Hi; [now rewrite Nat.add_0_r|]. rewrite Nat.add_succ_r. apply C. lia.
        * right. split; [exact A|]. exists (S k). split; [lia|]. split; [cbn; now rewrite B|]. rewrite Nat.add_succ_r. split; [exact C|].
          intros [|i] Hi; [now rewrite Nat.add_0_r|]. rewrite Nat.add_succ_r. apply G. lia.
      + injection H as <- <-. right. split; [reflexivity|]. exists 0%nat. rewrite Nat.add_0_r. repeat split; auto; lia.
  Qed.
  Lemma runs_nothing_started (b : bool) : runs (if b then [ACovStart] else []) = [].
  Proof. now destruct b. Qed.
  Lemma modules_load files : (forall m path e, In (m, path) files -> m <> T "runtests" -> loader m path <> LAbort e) ->
    forall mods lines r, load_modules loader files = (mods, lines, r) -> r = Ok tt.
  Proof.
    induction files as [|[m path] files IH]; intros Ha mods lines r; cbn [load_modules]; [now intros [= <- <- <-]|].
    assert (IH' := IH (fun x y e Hx => Ha x y e (or_intror Hx))). destruct (text_eqb m (T "runtests")) eqn:Et; [apply IH'|].
    destruct (loader m path) eqn:El.
    - destruct (load_modules loader files) as [[? ?] ?] eqn:F. intros [= <- <- <-]. now apply (IH' _ _ _ eq_refl).
    - destruct (load_modules loader files) as [[? ?] ?] eqn:F. intros [= <- <- <-]. now apply (IH' _ _ _ eq_refl).
    - exfalso. refine (Ha m path e (or_introl eq_refl) _ El). intros ->. now rewrite text_eqb_refl in Et.
  Qed.
  Lemma tests_load (Ht : forall f e, tests f <> Err e) inc exc l : exists l', load_tests tests search inc exc l = Ok l'.
  Proof.
    unfold load_tests. enough (exists y, mapM tests l = Ok y) as [y ->] by (cbn; eauto).
    induction l as [|x l [y IH]]; cbn; [eauto|]. destruct (tests x) eqn:E; [|elim (Ht x e E)]. cbn. rewrite IH. cbn. eauto.
  Qed.
  (** once the tests could be loaded *)
  Lemma main_loaded rounds has o fl dir tree r0 l lines e :
    runtests loader tests search r0 o dir tree = (l, lines, e) -> (fl_coverage fl = true -> has = true) ->
    (forall m path e, In (m, path) (list_dir tree [] dir) -> m <> T "runtests" -> loader m path <> LAbort e) -> (forall f e, tests f <> Err e) ->
    exists acts f, runtests_main loader tests search run rounds has o fl dir (Some tree) = (acts, f) /\
      if fl_forever fl then
        (f = Endless /\ runs acts = repeat l rounds /\ (forall i, (i < rounds)%nat -> run i l = true)) \/
        (f = Raised (ESystemExit 1) /\ exists k, (k < rounds)%nat /\ runs acts = repeat l (S k) /\ run k l = false /\ (forall i, (i < k)%nat -> run i l = true))
      else runs acts = [l] /\ f = Raised (ESystemExit (if run O l then 0 else 1)).
  Proof.
    intros H Hc Ha Ht. unfold runtests_main. unfold runtests in H.
    assert (fl_coverage fl && negb has = false) as ->.
    { destruct (fl_coverage fl); [rewrite (Hc eq_refl)|]; reflexivity. }
    destruct (load_modules loader (list_dir tree [] dir)) as [[mods lines0] r] eqn:Em.
    rewrite (modules_load _ Ha _ _ _ Em) in *. destruct (patterns o) as [inc exc].
    destruct (tests_load Ht inc exc (test_factories mods)) as [l0 El]. rewrite El in *.
    injection H as <- <- _. 
    assert (Rl : runs (match log_level (verbosity o) with Some n => [ASetLevel n] | None => [] end) = []) by (destruct (log_level (verbosity o)); reflexivity).
    assert (Rh : runs (if fl_catch fl then [AInstallHandler] else []) = []) by (destruct (fl_catch fl); reflexivity).
    assert (Re : forall f, runs (match f with Endless => [] | _ => if fl_coverage fl then [ACovEnd] else [] end) = []) by (intros []; destruct (fl_coverage fl); reflexivity).
    destruct (fl_forever fl).
    - destruct (forever run rounds 0 (Ok l0) _) as [acts f] eqn:F. eexists _, _. split; [reflexivity|].
      rewrite !runs_app, runs_nothing_started, Rl, Rh, Re, app_nil_r. cbn [app].
      exact (forever_runs _ _ _ _ _ _ _ _ F).
    - eexists _, _. split; [reflexivity|]. rewrite !runs_app, runs_nothing_started, Rl, Rh. split; [|reflexivity].
      destruct (fl_coverage fl); reflexivity.
  Qed.
  Lemma main_no_coverage rounds o fl dir tree : fl_coverage fl = true ->
    runtests_main loader tests search run rounds false o fl dir tree = ([APrint (T "coverage package is not installed.")], Raised (ESystemExit 1)).
  Proof. intros H. unfold runtests_main. now rewrite H. Qed.
  Lemma main_no_tests rounds has o fl dir : (fl_coverage fl = true -> has = true) ->
    runtests_main loader tests search run rounds has o fl dir None = ([APrint (T "Tests directory is not found: " ++ dir); AHelp], Returned).
  Proof. intros H. unfold runtests_main. destruct (fl_coverage fl); [rewrite H by reflexivity|]; reflexivity. Qed.
  Lemma forever_no_cov rounds : forall n one v a b acts f, forever run rounds n one (ARun v a b) = (acts, f) ->
    ~ In ACovEnd acts /\ ~ In ACovStart acts /\ f <> Returned.
  Proof.
    induction rounds as [|r IH]; intros n one v a b acts f H; cbn in H.
    - injection H as <- <-. repeat split; try easy; intros [].
    - destruct one as [l|e]; [|injection H as <- <-; repeat split; try easy; intros []].
      destruct (run n l); [|injection H as <- <-; repeat split; try easy; intros [|[]]; discriminate].
      destruct (forever run r (S n) (Ok l) _) as [acts' f'] eqn:F. injection H as <- <-. destruct (IH _ _ _ _ _ _ _ F) as (A & B & C).
      repeat split; [intros [|]; [discriminate|auto]|intros [|]; [discriminate|auto]|exact C].
  Qed.
  (** the measure is ended, once, after everything else *)
  Lemma main_measured rounds has o fl dir tree acts f :
    runtests_main loader tests search run rounds has o fl dir tree = (acts, f) -> In ACovStart acts -> f <> Endless ->
    (forall m path e, loader m path <> LAbort e) ->
    exists between, acts = ACovStart :: between ++ [ACovEnd] /\ ~ In ACovStart between /\ ~ In ACovEnd between.
  Proof.
    intros H Hin Hf Ha. unfold runtests_main in H.
    destruct (fl_coverage fl && negb has); [injection H as <- <-; destruct Hin as [|[]]; discriminate|].
    destruct tree as [tree|]; [|injection H as <- <-; destruct Hin as [|[|[]]]; discriminate].
    destruct (load_modules loader (list_dir tree [] dir)) as [[mods lines0] r] eqn:Em.
    assert (Er : r = Ok tt) by (refine (modules_load _ _ _ _ _ Em); intros; apply Ha).
    subst r. destruct (patterns o) as [inc exc].
    set (one := load_tests tests search inc exc (test_factories mods)) in *. clearbody one.
    set (body := if fl_forever fl then _ else _) in H.
    assert (Hb : ~ In ACovEnd (fst body) /\ ~ In ACovStart (fst body)).
    { subst body. destruct (fl_forever fl).
      - destruct (forever run rounds 0 one _) as [a' f'] eqn:F. destruct (forever_no_cov _ _ _ _ _ _ _ _ F) as (A & B & _). now split.
      - destruct one; cbn; split; intros X; repeat destruct X as [X|X]; try discriminate; exact X. }
    destruct body as [acts0 f0]. cbn [fst] in Hb. injection H as <- <-.
    assert (Hl : forall x, In x (match log_level (verbosity o) with Some n => [ASetLevel n] | None => [] end) -> x <> ACovStart /\ x <> ACovEnd).
    { intros x Hx. destruct (log_level (verbosity o)); [destruct Hx as [<-|[]]|destruct Hx]. easy. }
    assert (Hh : forall x, In x (if fl_catch fl then [AInstallHandler] else []) -> x <> ACovStart /\ x <> ACovEnd).
    { intros x Hx. destruct (fl_catch fl); [destruct Hx as [<-|[]]|destruct Hx]. easy. }
    destruct (fl_coverage fl) eqn:Ec.
    - eexists. cbn [app]. split.
      { f_equal. destruct f0; [| |easy]; rewrite !app_assoc; reflexivity. }
      rewrite !in_app_iff. destruct Hb as [B1 B2]. split; intros [[X|X]|X]; try apply Hl in X; try apply Hh in X; tauto.
    - exfalso. rewrite !in_app_iff in Hin. destruct Hb as [B1 B2]. destruct Hin as [X|[X|[X|[X|X]]]]; [destruct X|apply Hl in X; tauto|apply Hh in X; tauto|tauto|].
      destruct f0; destruct X.
  Qed.
  Lemma main_runners rounds has o fl dir tree acts f v ff leaks l :
    runtests_main loader tests search run rounds has o fl dir tree = (acts, f) -> In (ARun v ff leaks l) acts ->
    v = (if ro_quiet o then 0 else if ro_verbose o then 2 else 1) /\ ff = fl_failfast fl /\ leaks = fl_findleaks fl.
  Proof.
    intros H Hin. unfold runtests_main in H.
    destruct (fl_coverage fl && negb has); [injection H as <- <-; destruct Hin as [|[]]; discriminate|].
    destruct tree as [tree|]; [|injection H as <- <-; destruct Hin as [|[|[]]]; discriminate].
    destruct (load_modules loader (list_dir tree [] dir)) as [[mods lines0] [u|e]];
      [|injection H as <- <-; destruct (fl_coverage fl); [destruct Hin as [|[]]; discriminate|destruct Hin]].
    destruct (patterns o) as [inc exc]. set (one := load_tests tests search inc exc (test_factories mods)) in *. clearbody one.
    assert (Hv : verbosity o = (if ro_quiet o then 0 else if ro_verbose o then 2 else 1)) by (unfold verbosity; destruct (ro_quiet o), (ro_verbose o); reflexivity).
    rewrite <- Hv.
    set (body := if fl_forever fl then _ else _) in H.
    assert (Hb : forall x, In x (fst body) -> exists l, x = ARun (verbosity o) (fl_failfast fl) (fl_findleaks fl) l).
    { subst body. destruct (fl_forever fl).
      - generalize 0%nat. clear. induction rounds as [|r IH]; intros n x Hx; [destruct Hx|]. cbn in Hx. destruct one as [l|]; [|destruct Hx].
        destruct (run n l); [|destruct Hx as [<-|[]]; eauto]. specialize (IH (S n) x). destruct (forever run r (S n) (Ok l) _) as [a' f']. destruct Hx as [<-|Hx]; eauto.
      - destruct one; cbn; [intros x [<-|[]]; eauto|intros x []]. }
    destruct body as [acts0 f0]. cbn [fst] in Hb. injection H as <- <-.
    rewrite !in_app_iff in Hin. destruct Hin as [X|[X|[X|[X|X]]]].
    - destruct (fl_coverage fl); [destruct X as [|[]]; discriminate|destruct X].
    - destruct (log_level (verbosity o)); [destruct X as [|[]]; discriminate|destruct X].
    - destruct (fl_catch fl); [destruct X as [|[]]; discriminate|destruct X].
    - destruct (Hb _ X) as [l' [= -> -> -> ->]]. now repeat split.
    - destruct f0; try destruct (fl_coverage fl); repeat destruct X as [X|X]; first [discriminate X|destruct X].
  Qed.
End M.

Lemma leak_lines_count leaks : leaks <> [] -> List.length (leak_lines leaks) = (1 + List.length leaks + List.length (reported leaks))%nat.
Proof.
  intros H. unfold leak_lines. assert (E : forall l : list (text * list text), List.length (flat_map (fun l => (T "    " ++ fst l ++ T ":") :: map (fun x => T "        " ++ x) (snd l)) l) = (List.length l + List.length (reported l))%nat).
  { induction l as [|x l IH]; [reflexivity|]. cbn [flat_map reported List.length]. unfold reported in *. cbn [flat_map]. rewrite !app_length, IH. cbn [List.length]. rewrite map_length. lia. }
  destruct leaks as [|x l]; [congruence|]. cbn [List.length]. specialize (E (x :: l)). cbn [List.length] in E |- *. rewrite E. reflexivity.
Qed.
Lemma leak_lines_shown leaks name l : In (name, l) leaks -> exists before after,
  leak_lines leaks = before ++ (T "    " ++ name ++ T ":") :: map (fun x => T "        " ++ x) l ++ after /\ before <> [].
Proof.
  intros H. unfold leak_lines. apply in_split in H as (a & b & ->). set (n := List.length (a ++ (name, l) :: b)). 
  replace (match a ++ (name, l) :: b with [] => _ | _ => _ end) with ((str_int (Z.of_nat n) ++ T " tests leaks:") ::
         flat_map (fun l : text * list text => (T "    " ++ fst l ++ T ":") :: map (fun x => T "        " ++ x) (snd l)) (a ++ (name, l) :: b)) by (destruct a; reflexivity).
  rewrite flat_map_app. cbn [flat_map fst snd]. eexists (_ :: _), _. split; [cbn [app]; f_equal; cbn [app]; f_equal; now rewrite <- app_comm_cons|discriminate].
Qed.
