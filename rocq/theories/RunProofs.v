(** * RunProofs: proofs about runtests.py. *)
From Coq Require Import ZArith List Ascii String Bool Lia.
From Verif Require Import PyBase PyFacts RunModel RunSpec.
Import ListNotations.
Open Scope Z_scope.

(** induction over trees *)
Section Ind.
  Context (P : node -> Prop) (HF : P NFile) (HD : forall l, Forall (fun e : text * node => P (snd e)) l -> P (NDir l)).
  Fixpoint node_ind' (n : node) : P n :=
    match n with
    | NFile => HF
    | NDir l => HD l ((fix go (l : list (text * node)) : Forall (fun e => P (snd e)) l :=
                         match l with
                         | [] => Forall_nil _
                         | e :: l => Forall_cons e (node_ind' (snd e)) (go l)
                         end) l)
    end.
End Ind.
Lemma join_path_under dir name : join_path dir name = under dir name.
Proof.
  unfold join_path, under. destruct dir as [|c dir'] using rev_ind; [reflexivity|]. rewrite rev_unit, app_length, Nat.add_sub, skipn_app, skipn_all, Nat.sub_diag.
  cbn [app skipn]. assert (text_eqb (dir' ++ [c]) [] = false) as -> by (destruct dir'; reflexivity).
  cbn [T list_ascii_of_string text_eqb]. rewrite andb_true_r, orb_false_r. destruct (Ascii.eqb c "/"); reflexivity.
Qed.
Definition entry_files (prefix dir : text) (e : text * node) : list (text * text) :=
  match snd e with
  | NDir _ => list_dir (snd e) (prefix ++ fst e ++ T ".") (under dir (fst e))
  | NFile => if is_module (fst e) then [(prefix ++ firstn (List.length (fst e) - 3) (fst e), under dir (fst e))] else []
  end.
Lemma list_dir_eq entries prefix dir :
  list_dir (NDir entries) prefix dir =
  (if is_file init_py entries then [(prefix ++ last_component dir, under dir init_py)] else []) ++
  flat_map (entry_files (if is_file init_py entries then prefix ++ last_component dir ++ T "." else prefix) dir) entries.
Proof.
  cbn [list_dir]. rewrite join_path_under. f_equal. generalize (if is_file init_py entries then prefix ++ last_component dir ++ T "." else prefix). intros q.
  induction entries as [|[name sub] l IH]; [reflexivity|]. cbn [flat_map entry_files fst snd]. rewrite IH, join_path_under. reflexivity.
Qed.
Lemma is_file_spec name entries : is_file name entries = true <-> In (name, NFile) entries.
Proof.
  unfold is_file. rewrite existsb_exists. split.
  - intros ([x n] & I & H). apply andb_prop in H as [H1 H2]. apply text_eqb_eq in H1. cbn in *. subst. destruct n; [exact I|discriminate].
  - intros I. exists (name, NFile). split; [exact I|]. cbn. rewrite text_eqb_refl. reflexivity.
Qed.
Lemma ends_app base : ends_with (T ".py") (base ++ T ".py") = true.
Proof. apply ends_with_spec. eauto. Qed.
Lemma is_module_spec name : is_module name = true <->
  name <> init_py /\ exists base, name = base ++ T ".py" /\ hd_error name <> Some "."%char /\ hd_error name <> Some "_"%char.
Proof.
  unfold is_module. rewrite !andb_true_iff, !negb_true_iff, orb_false_iff. split.
  - intros ((A & B) & C & D). split; [intros ->; rewrite text_eqb_refl in A; discriminate|].
    apply ends_with_spec in B as (b & ->). exists b. split; [reflexivity|].
    destruct (b ++ T ".py") as [|c r]; [split; discriminate|]. cbn [hd_error].
    split; intros [= ->]; [clear D; rename C into X|clear C; rename D into X]; cbn in X; destruct r; discriminate.
  - intros (A & b & -> & C & D). split; [split|split].
    + destruct (text_eqb (b ++ T ".py") init_py) eqn:E; [|reflexivity]. apply text_eqb_eq in E. contradiction.
    + apply ends_app.
    + destruct (starts_with (T ".") (b ++ T ".py")) eqn:E; [|reflexivity]. apply starts_with_spec in E as (r & E). rewrite E in C. cbn in C. congruence.
    + destruct (starts_with (T "_") (b ++ T ".py")) eqn:E; [|reflexivity]. apply starts_with_spec in E as (r & E). rewrite E in D. cbn in D. congruence.
Qed.
Lemma python_file_spec name : python_file name <-> name = init_py \/ is_module name = true.
Proof.
  unfold python_file. rewrite is_module_spec. unfold init_py. split; [intros [H|H]; auto|intros [H|[_ H]]; auto].
  destruct (text_eqb name (T "__init__.py")) eqn:E; [apply text_eqb_eq in E; auto|]. right. split; [|exact H].
  intros ->. rewrite text_eqb_refl in E. discriminate.
Qed.

Lemma files_spec tree : forall prefix dir path,
  (exists modname, In (modname, path) (list_dir tree prefix dir)) <->
  exists comps name, file_at tree (comps ++ [name]) /\ python_file name /\ path = full_path dir (comps ++ [name]).
Proof.
  induction tree as [|entries IH] using node_ind'; intros prefix dir path.
  - split; [intros (m & [])|]. intros (c & n & H & _). inversion H.
  - rewrite list_dir_eq. set (q := if is_file init_py entries then _ else _) at 2. split.
    + intros (m & H). apply in_app_or in H as [H|H].
      * destruct (is_file init_py entries) eqn:F; [|destruct H]. destruct H as [H|[]]. inversion H; subst.
        exists [], init_py. apply is_file_spec in F. split; [now constructor|]. split; [now left|]. reflexivity.
      * apply in_flat_map in H as ([name sub] & I & H). unfold entry_files in H. cbn [fst snd] in H.
        destruct sub as [|l].
        -- destruct (is_module name) eqn:M; [|destruct H]. destruct H as [H|[]]. inversion H; subst.
           exists [], name. split; [now constructor|]. split; [apply python_file_spec; auto|]. reflexivity.
        -- rewrite Forall_forall in IH. specialize (IH _ I (q ++ name ++ T ".") (under dir name) path). cbn [snd] in IH.
           destruct (proj1 IH) as (c & n & F & P & E); [eauto|].
           exists (name :: c), n. split; [econstructor; eauto|]. split; [exact P|exact E].
    + intros (c & n & F & P & E). destruct c as [|name c].
      * cbn [app] in *. inversion F as [? ? I|? ? ? ? I F']; subst; [|inversion F'].
        apply python_file_spec in P as [->|M].
        -- exists (prefix ++ last_component dir). apply in_or_app. left. apply is_file_spec in I. rewrite I. left. reflexivity.
        -- eexists. apply in_or_app. right. apply in_flat_map. exists (n, NFile). split; [exact I|]. unfold entry_files. cbn [fst snd]. rewrite M.
           left. reflexivity.
      * cbn [app] in *. inversion F as [? ? I H|? ? sub ? I F']; subst; [destruct c; discriminate|].
        rewrite Forall_forall in IH. pose proof (IH _ I (q ++ name ++ T ".") (under dir name) (full_path dir (name :: c ++ [n]))) as IH'.
        cbn [snd] in IH'. destruct (proj2 IH') as (m & H); [exists c, n; repeat split; auto|].
        exists m. apply in_or_app. right. apply in_flat_map. exists (name, sub). split; [exact I|]. unfold entry_files. cbn [fst snd].
        destruct sub; [inversion F'|exact H].
Qed.

(** ** names of modules *)
Lemma firstn_py base : firstn (List.length (base ++ T ".py") - 3) (base ++ T ".py") = base.
Proof.
  rewrite app_length. cbn [T list_ascii_of_string List.length]. replace (List.length base + 3 - 3)%nat with (List.length base) by lia.
  rewrite firstn_app, firstn_all, Nat.sub_diag. cbn. apply app_nil_r.
Qed.
Lemma names_spec tree : forall prefix dir modname path, no_package tree = true ->
  In (modname, path) (list_dir tree prefix dir) ->
  exists comps m, file_at tree comps /\ path = full_path dir comps /\ module_of comps m /\ modname = prefix ++ m.
Proof.
  induction tree as [|entries IH] using node_ind'; intros prefix dir modname path N H; [destruct H|].
  rewrite list_dir_eq in H. cbn [no_package] in N. rewrite forallb_forall in N.
  assert (F : is_file init_py entries = false).
  { destruct (is_file init_py entries) eqn:F; [|reflexivity]. apply is_file_spec in F. specialize (N _ F). cbn [fst] in N.
    change (text_eqb init_py (T "__init__.py")) with true in N. discriminate. }
  rewrite F in H. cbn [app] in H. apply in_flat_map in H as ([name sub] & I & H). unfold entry_files in H. cbn [fst snd] in H.
  destruct sub as [|l].
  - destruct (is_module name) eqn:M; [|destruct H]. destruct H as [H|[]]. inversion H; subst.
    apply is_module_spec in M as (_ & b & -> & _). rewrite firstn_py. exists [b ++ T ".py"], b.
    split; [now constructor|]. split; [reflexivity|]. split; [|reflexivity]. exists [], b. split; reflexivity.
  - rewrite Forall_forall in IH. specialize (N _ I). cbn [fst snd] in N. apply andb_prop in N as [_ N].
    destruct (IH _ I _ _ _ _ N H) as (c & m & FA & P & (d & b & E & M) & Q). cbn [snd] in FA.
    exists (name :: c), (name ++ T "." ++ m). split; [econstructor; eauto|]. split; [exact P|]. split.
    + exists (name :: d), b. subst c. split; [reflexivity|]. cbn [map List.concat]. rewrite M, <- !app_assoc. reflexivity.
    + rewrite Q, <- !app_assoc. reflexivity.
Qed.
Lemma names_doubled : exists tree, In (T "sub.sub.test_a", T "tests/sub/test_a.py") (list_dir tree [] (T "tests")) /\
  file_at tree [T "sub"; T "test_a.py"] /\ ~ exists p, In (T "sub.test_a", p) (list_dir tree [] (T "tests")).
Proof.
  exists (NDir [(T "sub", NDir [(T "__init__.py", NFile); (T "test_a.py", NFile)])]).
  split; [vm_compute; auto|]. split.
  - econstructor 2; [left; reflexivity|]. constructor. right; left; reflexivity.
  - intros (p & H). vm_compute in H. destruct H as [H|[H|[]]]; discriminate.
Qed.

(** ** loading *)
Section Load.
  Context (loader : text -> text -> load).
  Definition loads (file : text * text) (names : list text) : Prop := fst file <> T "runtests" /\ loader (fst file) (snd file) = LMod names.
  Lemma load_ok files mods lines : load_modules loader files = (mods, lines, Ok tt) ->
    (forall f, In f files -> fst f <> T "runtests" -> forall e, loader (fst f) (snd f) <> LAbort e) /\
    (forall path names, In (path, names) mods <-> exists m, In (m, path) files /\ loads (m, path) names) /\
    (forall t, In t lines <-> exists m path msg, In (m, path) files /\ m <> T "runtests" /\ loader m path = LFail msg /\ t = T "Skipping '" ++ m ++ T "': " ++ msg).
  Proof.
    revert mods lines. induction files as [|[m path] files IH]; intros mods lines H; cbn [load_modules] in H.
    - inversion H; subst. repeat split; try intros ? []; try (intros; contradiction).
      + intros (m & [] & _).
      + intros (? & ? & ? & [] & _).
    - destruct (text_eqb m (T "runtests")) eqn:R.
      + apply text_eqb_eq in R. subst m. destruct (IH _ _ H) as (A & B & C). split; [|split].
        * intros f [<-|I] N; [contradiction (N eq_refl)|auto].
        * intros q names. rewrite B. split; intros (m & I & L); exists m; (split; [|exact L]); [right; exact I|].
          destruct I as [E|I]; [|exact I]. inversion E; subst. destruct L as [L _]. contradiction (L eq_refl).
        * intros t. rewrite C. split; intros (m & q & msg & I & N & L); exists m, q, msg; (split; [|split; [exact N|exact L]]); [right; exact I|].
          destruct I as [E|I]; [|exact I]. inversion E; subst. contradiction (N eq_refl).
      + assert (N : m <> T "runtests") by (intros ->; rewrite text_eqb_refl in R; discriminate).
        destruct (loader m path) as [names|msg|e] eqn:L; [| |discriminate].
        * destruct (load_modules loader files) as [[mods' lines'] r]. inversion H; subst. destruct (IH _ _ eq_refl) as (A & B & C). split; [|split].
          -- intros f [<-|I] N'; [cbn [fst snd]; rewrite L; discriminate|auto].
          -- intros q ns. split.
             ++ intros [E|I]; [inversion E; subst; exists m; split; [now left|split; auto]|]. apply B in I as (m' & I & LL). exists m'. split; [now right|exact LL].
             ++ intros (m' & [E|I] & LL); [inversion E; subst; left; destruct LL as [_ LL]; cbn [fst snd] in LL; congruence|]. right. apply B. eauto.
          -- intros t. rewrite C. split; intros (m' & q & msg & I & Z & LL); exists m', q, msg; (split; [|split; [exact Z|exact LL]]); [right; exact I|].
             destruct I as [E|I]; [|exact I]. inversion E; subst. destruct LL as [LL _]. congruence.
        * destruct (load_modules loader files) as [[mods' lines'] r]. inversion H; subst. destruct (IH _ _ eq_refl) as (A & B & C). split; [|split].
          -- intros f [<-|I] N'; [cbn [fst snd]; rewrite L; discriminate|auto].
          -- intros q ns. rewrite B. split; intros (m' & I & LL); exists m'; (split; [|exact LL]); [right; exact I|].
             destruct I as [E|I]; [|exact I]. inversion E; subst. destruct LL as [_ LL]. cbn [fst snd] in LL. congruence.
          -- intros t. split.
             ++ intros [<-|I]; [exists m, path, msg; repeat split; auto; now left|]. apply C in I as (m' & q & msg' & I & Z). exists m', q, msg'. split; [now right|exact Z].
             ++ intros (m' & q & msg' & [E|I] & Z & LL & ->); [inversion E; subst; left; congruence|]. right. apply C. exists m', q, msg'. auto.
  Qed.
End Load.

Lemma factories_spec mods f name : In (f, name) (test_factories mods) <->
  exists names, In (f, names) mods /\ In name names /\ contains (T "Test") name = true.
Proof.
  unfold test_factories. rewrite in_flat_map. split.
  - intros ([g names] & I & H). apply in_map_iff in H as (x & E & H). cbn [fst snd] in *. inversion E; subst.
    apply filter_In in H as [H1 H2]. eauto.
  - intros (names & I & H1 & H2). exists (f, names). split; [exact I|]. apply in_map_iff. exists name. split; [reflexivity|]. now apply filter_In.
Qed.
Lemma mapM_in {A B} (g : A -> res B) l r : mapM g l = Ok r -> forall y, In y r <-> exists x, In x l /\ g x = Ok y.
Proof.
  revert r. induction l as [|x l IH]; intros r H y.
  - inversion H; subst. split; [intros []|intros (? & [] & _)].
  - cbn [mapM] in H. destruct (g x) as [z|e] eqn:G; [|discriminate]. cbn [bind] in H. destruct (mapM g l) as [r'|e]; [|discriminate].
    inversion H; subst. split.
    + intros [<-|I]; [exists x; split; [now left|exact G]|]. apply (IH _ eq_refl) in I as (w & I & W). exists w. split; [now right|exact W].
    + intros (w & [<-|I] & W); [left; congruence|]. right. apply (IH _ eq_refl). eauto.
Qed.
(** ** which tests are run *)
Lemma run_spec loader tests search run o testsdir tree l lines code :
  runtests loader tests search run o testsdir tree = (l, lines, ESystemExit code) ->
  (forall m path e, In (m, path) (list_dir tree [] testsdir) -> m <> T "runtests" -> loader m path <> LAbort e) ->
  (forall f e, tests f = Err e -> False) ->
  (code = if run l then 0 else 1) /\
  forall id, In id l <->
    (exists m path names name ids, In (m, path) (list_dir tree [] testsdir) /\ m <> T "runtests" /\ loader m path = LMod names /\
       In name names /\ contains (T "Test") name = true /\ tests (path, name) = Ok ids /\ In id ids) /\
    match ro_pattern o with
    | None | Some [] => True
    | Some pats => if ro_exclude o then forall pat, In pat pats -> search pat id = false else exists pat, In pat pats /\ search pat id = true
    end.
Proof.
  unfold runtests. intros H NA NT.
  destruct (load_modules loader (list_dir tree [] testsdir)) as [[mods ls] r] eqn:L.
  assert (Hr : r = Ok tt).
  { clear H. revert mods ls L. generalize (list_dir tree [] testsdir), NA. clear NA. intros files NA.
    induction files as [|[m path] files IH]; intros mods ls L; cbn [load_modules] in L; [now inversion L|].
    assert (NA' : forall m path e, In (m, path) files -> m <> T "runtests" -> loader m path <> LAbort e) by (intros; eapply NA; eauto; now right).
    destruct (text_eqb m (T "runtests")) eqn:R; [eapply IH; eauto|].
    assert (N : m <> T "runtests") by (intros ->; rewrite text_eqb_refl in R; discriminate).
    destruct (loader m path) eqn:Lo; [| |exfalso; eapply NA; [left; reflexivity|exact N|exact Lo]];
      destruct (load_modules loader files) as [[mods' lines'] r']; inversion L; subst; eapply IH; eauto. }
  subst r. destruct (load_ok loader _ _ _ L) as (_ & B & _).
  destruct (patterns o) as [includes excludes] eqn:P.
  destruct (load_tests tests search includes excludes (test_factories mods)) as [ids|e] eqn:T1.
  2:{ unfold load_tests in T1. exfalso. clear - T1 NT. revert T1. generalize (test_factories mods). intros fs.
      assert (G : exists r, mapM tests fs = Ok r).
      { induction fs as [|f fs [r IH]]; [eexists; reflexivity|]. cbn [mapM]. destruct (tests f) eqn:Q; [|destruct (NT _ _ Q)]. cbn [bind]. rewrite IH. eexists. reflexivity. }
      destruct G as [r ->]. discriminate. }
  inversion H; subst. split; [reflexivity|]. unfold load_tests in T1.
  destruct (mapM tests (test_factories mods)) as [rs|e] eqn:MM; [|discriminate]. cbn [bind] in T1. inversion T1; subst. clear T1.
  intros id. rewrite filter_In, in_concat.
  assert (S : selected search includes excludes id = true <->
     match ro_pattern o with
     | None | Some [] => True
     | Some pats => if ro_exclude o then forall pat, In pat pats -> search pat id = false else exists pat, In pat pats /\ search pat id = true
     end).
  { unfold patterns in P. unfold selected. destruct (ro_exclude o); inversion P; subst; destruct (ro_pattern o) as [[|a b]|]; try (split; auto; fail).
    - cbn [andb]. rewrite negb_true_iff. split.
      + intros X pat I. destruct (search pat id) eqn:Q; [|reflexivity]. rewrite <- X. symmetry. apply existsb_exists. eauto.
      + intros X. destruct (existsb _ _) eqn:Q; [|reflexivity]. apply existsb_exists in Q as (pat & I & Q). rewrite X in Q by exact I. discriminate.
    - rewrite andb_true_r. apply existsb_exists. }
  rewrite S. split; intros [A C]; (split; [|exact C]).
  - destruct A as (ids & I & J). apply (mapM_in tests _ _ MM) in I as ([path name] & I & Q). apply factories_spec in I as (names & I & N1 & N2).
    apply B in I as (m & I & LL). destruct LL as [LL1 LL2]. cbn [fst snd] in *. exists m, path, names, name, ids. repeat split; auto.
  - destruct A as (m & path & names & name & ids & I & N & LL & N1 & N2 & Q & J). exists ids. split; [|exact J].
    apply (mapM_in tests _ _ MM). exists (path, name). split; [|exact Q]. apply factories_spec. exists names. repeat split; auto.
    apply B. exists m. split; [exact I|]. split; auto.
Qed.
Lemma aborted_spec loader tests search run o testsdir tree files m path files' e :
  list_dir tree [] testsdir = files ++ (m, path) :: files' -> m <> T "runtests" -> loader m path = LAbort e ->
  (forall m path e, In (m, path) files -> m <> T "runtests" -> loader m path <> LAbort e) ->
  exists lines, runtests loader tests search run o testsdir tree = ([], lines, e).
Proof.
  intros E N L NA. unfold runtests. rewrite E.
  assert (G : exists mods lines, load_modules loader (files ++ (m, path) :: files') = (mods, lines, Err e)).
  { clear E. induction files as [|[m' path'] files IH].
    - cbn [app load_modules]. rewrite (proj2 (text_eqb_neq _ _) N), L. eauto.
    - cbn [app load_modules]. destruct IH as (mods & lines & H); [intros; eapply NA; eauto; now right|]. rewrite H.
      destruct (text_eqb m' (T "runtests")) eqn:R; [eauto|].
      assert (N' : m' <> T "runtests") by (intros ->; rewrite text_eqb_refl in R; discriminate).
      destruct (loader m' path') eqn:Q; [eauto|eauto|]. exfalso. eapply NA; [now left|exact N'|exact Q]. }
  destruct G as (mods & lines & ->). eauto.
Qed.
Lemma skipped_is_success : exists loader tests tree lines, let search := fun _ _ : text => true in
  runtests loader tests search (fun _ => true) (RunOptions false None false false) (T "tests") tree = ([], lines, ESystemExit 0) /\
  file_at tree [T "test_gdb.py"] /\ lines = [T "Skipping 'test_gdb': No module named 'ptrace'"].
Proof.
  exists (fun _ _ => LFail (T "No module named 'ptrace'")), (fun _ => Ok [T "a"]), (NDir [(T "test_gdb.py", NFile)]). eexists. cbv zeta.
  split; [vm_compute; reflexivity|]. split; [constructor; now left|]. vm_compute. reflexivity.
Qed.
Lemma verbosity_spec o : verbosity o = (if ro_quiet o then 0 else if ro_verbose o then 2 else 1) /\
  log_level (verbosity o) = Some (if ro_quiet o then 50 else if ro_verbose o then 30 else 40).
Proof. unfold verbosity. destruct (ro_quiet o), (ro_verbose o); split; reflexivity. Qed.
