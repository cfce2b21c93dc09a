(** * SdistProofs: proofs about the source distribution. *)
From Coq Require Import ZArith List Ascii String Bool Lia.
From Verif Require Import PyBase PyFacts PyIntFacts SdistCode SdistModel SdistSpec.
Import ListNotations.
Open Scope char_scope.

Lemma eqb_eq a b : Ascii.eqb a b = true <-> a = b.
Proof. apply Ascii.eqb_eq. Qed.
Lemma glob_star p s : glob ("*" :: p) s = (glob p s || match s with x :: s => negb (Ascii.eqb x "/") && glob ("*" :: p) s | [] => false end)%bool.
Proof. destruct s; reflexivity. Qed.
Lemma star_matches p s : (forall s, glob p s = true <-> matches p s) -> glob ("*" :: p) s = true <-> exists a r, s = a ++ r /\ ~ In "/" a /\ matches p r.
Proof.
  intros H. induction s as [|x s IH]; rewrite glob_star, orb_true_iff, H.
  - split; [intros [M|]; [|discriminate]; exists [], []; auto|]. intros (a & r & E & _ & M). destruct a, r; try discriminate. now left.
  - rewrite andb_true_iff, negb_true_iff, IH. split.
    + intros [M|[X (a & r & -> & N & M)]]; [exists [], (x :: s); auto|]. exists (x :: a), r. split; [reflexivity|]. split; [|exact M].
      intros [->|I]; [discriminate|contradiction].
    + intros ([|y a] & r & E & N & M); cbn [app] in E; [left; now subst r|]. injection E as -> ->. right. split; [|exists a, r; repeat split; [|exact M]; intros I; apply N; now right].
      destruct (Ascii.eqb y "/") eqn:Y; [|reflexivity]. apply eqb_eq in Y. subst. exfalso. apply N. now left.
Qed.
Lemma glob_matches p : forall s, glob p s = true <-> matches p s.
Proof.
  induction p as [|c p IH]; intros s.
  - destruct s; cbn [glob]; split; [constructor|reflexivity|discriminate|intros M; inversion M].
  - destruct (Ascii.eqb c "*") eqn:C.
    + apply eqb_eq in C. subst c. rewrite star_matches by exact IH. split.
      * intros (a & r & -> & N & M). now constructor.
      * intros M. inversion M; subst; [eauto|congruence].
    + cbn [glob]. rewrite C. assert (c <> "*") as NS by (intros ->; discriminate). destruct s as [|x s]; [split; [discriminate|intros M; inversion M; subst; congruence]|].
      rewrite andb_true_iff, IH. destruct (Ascii.eqb c "?") eqn:Q.
      * apply eqb_eq in Q. subst c. rewrite negb_true_iff. split.
        -- intros [X M]. constructor; [intros ->; discriminate|exact M].
        -- intros M. inversion M; subst; [|congruence]. split; [|assumption]. destruct (Ascii.eqb x "/") eqn:X; [apply eqb_eq in X; congruence|reflexivity].
      * assert (c <> "?") as NQ by (intros ->; discriminate). rewrite eqb_eq. split.
        -- intros [-> M]. now constructor.
        -- intros M. inversion M; subst; [congruence|congruence|now split].
Qed.

Lemma included_iff manifest tree f : In f (included manifest tree) <-> In f tree /\ exists line p, In line manifest /\ In p (line_patterns line) /\ matches p f.
Proof.
  unfold included, patterns. rewrite in_flat_map. split.
  - intros (p & P & I). apply in_flat_map in P. destruct P as (line & L & P). apply filter_In in I. destruct I as [I G]. split; [exact I|]. exists line, p. now rewrite <- glob_matches.
  - intros (I & line & p & L & P & M). exists p. split; [apply in_flat_map; eauto|]. apply filter_In. now rewrite glob_matches.
Qed.

(** The words of a line *)
Definition wordy (w : text) : Prop := w <> [] /\ Forall (fun c => is_space c = false /\ c <> "#") w.
Lemma no_comment_app a b : ~ In "#" a -> no_comment (a ++ b) = a ++ no_comment b.
Proof.
  induction a as [|x a IH]; intros N; [reflexivity|]. cbn [app no_comment]. destruct (Ascii.eqb x "#") eqn:E; [apply eqb_eq in E; exfalso; apply N; now left|].
  rewrite IH; [reflexivity|]. intros I. apply N. now right.
Qed.
Lemma wordy_hash w : wordy w -> ~ In "#" w.
Proof. intros [_ F] I. rewrite Forall_forall in F. apply F in I. now destruct I. Qed.
Lemma join_hash words : Forall wordy words -> ~ In "#" (join (T " ") words).
Proof.
  induction 1 as [|w l W F IH]; [intros []|]. destruct l as [|v l]; [now apply wordy_hash|]. change (join (T " ") (w :: v :: l)) with (w ++ " " :: join (T " ") (v :: l)).
  intros I. apply in_app_or in I. destruct I as [I|[I|I]]; [exact (wordy_hash w W I)|discriminate|contradiction].
Qed.
Lemma join_concat words : words <> [] -> " " :: join (T " ") words = List.concat (map (fun w => " " :: w) words).
Proof.
  induction words as [|w l IH]; [congruence|]. intros _. destruct l as [|v l]; [cbn; now rewrite app_nil_r|].
  change (join (T " ") (w :: v :: l)) with (w ++ " " :: join (T " ") (v :: l)). rewrite IH by discriminate. reflexivity.
Qed.
Lemma line_words line words : includes line words -> line_patterns line = words.
Proof.
  intros H. destruct H as [words comment F C]. unfold line_patterns.
  assert (exists tail, Forall (fun c => is_space c = true) tail /\ no_comment comment = tail) as (tail & Ht & Et).
  { destruct C as [->|[rest ->]]; [exists []; now split|]. exists [" "]. split; [repeat constructor|reflexivity]. }
  rewrite no_comment_app by (intros [I|[I|[I|[I|[I|[I|[I|[I|[]]]]]]]]]; discriminate). rewrite no_comment_app by now apply join_hash. rewrite Et.
  assert (split_ws (T "include " ++ join (T " ") words ++ tail) = T "include" :: words) as ->; [|reflexivity].
  change (split_ws (T "include " ++ join (T " ") words ++ tail)) with (split_ws (" " :: T "include" ++ " " :: join (T " ") words ++ tail)).
  assert (Forall (fun w => w <> [] /\ Forall (fun c => is_space c = false) w) (T "include" :: words)) as W.
  { constructor; [split; [discriminate|repeat constructor]|]. eapply Forall_impl; [|exact F]. intros w [N G]. split; [exact N|]. eapply Forall_impl; [|exact G]. now intros c [S _]. }
  destruct words as [|w l].
  - pose proof (split_words " " eq_refl [T "include"] (" " :: tail) W) as P. cbn [join app]. apply P. now constructor.
  - assert (" " :: T "include" ++ " " :: join (T " ") (w :: l) ++ tail = List.concat (map (fun w => " " :: w) (T "include" :: w :: l)) ++ tail) as ->.
    { change (" " :: join (T " ") (w :: l) ++ tail) with ((" " :: join (T " ") (w :: l)) ++ tail). rewrite join_concat by discriminate. cbn [map List.concat]. rewrite <- !app_assoc. reflexivity. }
    now apply split_words.
Qed.

(** The packages *)
Lemma package_dir_join l : Forall (fun n => ~ In "." n) l -> package_dir (join (T ".") l) = join (T "/") l.
Proof.
  assert (forall n, ~ In "." n -> package_dir n = n) as K.
  { induction n as [|c n IH]; intros N; [reflexivity|]. cbn [package_dir map]. destruct (Ascii.eqb c ".") eqn:E; [apply eqb_eq in E; exfalso; apply N; now left|].
    f_equal. apply IH. intros I. apply N. now right. }
  induction 1 as [|n l N F IH]; [reflexivity|]. destruct l as [|m l]; [now apply K|].
  change (join (T ".") (n :: m :: l)) with (n ++ T "." ++ join (T ".") (m :: l)). change (join (T "/") (n :: m :: l)) with (n ++ T "/" ++ join (T "/") (m :: l)).
  unfold package_dir in *. rewrite !map_app, IH. f_equal. now apply K.
Qed.
Lemma matches_literal p a s : Forall (fun c => c <> "*" /\ c <> "?") p -> matches (p ++ a) s <-> exists r, s = p ++ r /\ matches a r.
Proof.
  revert s. induction p as [|c p IH]; intros s F; [split; [intros M; now exists s|intros (r & -> & M); exact M]|]. inversion F as [|? ? [C1 C2] F']; subst. split.
  - intros M. inversion M; subst; try congruence. match goal with M : matches (p ++ a) _ |- _ => apply IH in M; [|exact F']; destruct M as (r & -> & M); exists r; now split end.
  - intros (r & -> & M). cbn [app]. constructor; [assumption|assumption|]. apply IH; [exact F'|]. now exists r.
Qed.
Lemma star_py r : matches (T "*.py") r <-> exists n, r = n ++ T ".py" /\ ~ In "/" n.
Proof.
  assert (matches (T ".py") (T ".py")) as L by (repeat constructor; discriminate).
  split.
  - intros M. inversion M as [|p a s N M' E1 E2| |p c s C1 C2 M' E1 E2]; subst; [|congruence]. exists a. split; [|exact N]. f_equal.
    change (matches (T ".py" ++ []) s) in M'. apply matches_literal in M'; [|repeat constructor; discriminate]. destruct M' as (r & -> & M'). inversion M'; subst. apply app_nil_r.
  - intros (n & -> & N). apply (m_star (T ".py") n (T ".py")); assumption.
Qed.
Lemma package_files_iff l tree f : Forall (fun n => plain n /\ ~ In "*" n /\ ~ In "?" n) l -> l <> [] ->
  In f (package_files (join (T ".") l) tree) <-> In f tree /\ exists n, ~ In "/" n /\ f = module_file l n.
Proof.
  intros F Nl. unfold package_files. rewrite filter_In, glob_matches.
  rewrite package_dir_join by (eapply Forall_impl; [|exact F]; now intros n ((_ & N & _) & _)).
  assert (Forall (fun c => c <> "*" /\ c <> "?") (join (T "/") l ++ T "/")) as G.
  { apply Forall_app. split; [|repeat constructor; discriminate]. clear Nl. induction F as [|n l (_ & N1 & N2) _ IH]; [constructor|].
    assert (Forall (fun c => c <> "*" /\ c <> "?") n) as Hn by (apply Forall_forall; intros c I; split; intros ->; contradiction).
    destruct l as [|m l]; [exact Hn|]. change (join (T "/") (n :: m :: l)) with (n ++ T "/" ++ join (T "/") (m :: l)).
    apply Forall_app. split; [exact Hn|]. apply Forall_app. split; [repeat constructor; discriminate|exact IH]. }
  change (join (T "/") l ++ T "/*.py") with (join (T "/") l ++ (T "/" ++ T "*.py")). rewrite app_assoc. rewrite (matches_literal _ _ _ G).
  assert (forall n, module_file l n = (join (T "/") l ++ T "/") ++ n ++ T ".py") as J.
  { intros n. unfold module_file. rewrite !app_assoc. f_equal. clear F G. induction l as [|x l IH]; [congruence|]. destruct l as [|y l]; [cbn [app join]; now rewrite <- app_assoc|].
    change (join (T "/") ((x :: y :: l) ++ [n])) with (x ++ T "/" ++ join (T "/") ((y :: l) ++ [n])). rewrite IH by discriminate.
    change (join (T "/") (x :: y :: l)) with (x ++ T "/" ++ join (T "/") (y :: l)). now rewrite <- !app_assoc. }
  split.
  - intros [I (r & -> & M)]. apply star_py in M. destruct M as (n & -> & N). split; [exact I|]. exists n. split; [exact N|]. now rewrite J.
  - intros [I (n & N & ->)]. split; [exact I|]. exists (n ++ T ".py"). split; [apply J|]. apply star_py. now exists n.
Qed.

(** The files *)
Local Opaque tree manifest modules.
Lemma in_dec_b (f : text) l : In f l <-> existsb (text_eqb f) l = true.
Proof.
  rewrite existsb_exists. split; [intros I; exists f; split; [exact I|now apply text_eqb_eq]|]. intros (x & I & E). apply text_eqb_eq in E. now subst.
Qed.
Lemma check_all (P : text -> bool) l : forallb P l = true -> forall f, In f l -> P f = true.
Proof. intros H. now apply forallb_forall. Qed.
Lemma sdist_files f : In f tree -> (In f (sdist tree) <-> ~ In f repository_only).
Proof.
  rewrite (in_dec_b f (sdist tree)), (in_dec_b f repository_only), not_true_iff_false. intros I.
  assert ((fun d => forallb (fun f => Bool.eqb (existsb (text_eqb f) d) (negb (existsb (text_eqb f) repository_only))) tree) (sdist tree) = true) as H by (vm_compute; reflexivity).
  apply (check_all _ _ H) in I. apply eqb_prop in I. rewrite I. apply negb_true_iff.
Qed.
Lemma included_in m t f : In f (included m t) -> In f t.
Proof. intros I. apply included_iff in I. exact (proj1 I). Qed.
Lemma packaged_in ms t f : In f (flat_map (fun m => package_files m t) ms) -> In f t.
Proof. intros I. apply in_flat_map in I. destruct I as (m & _ & I). apply filter_In in I. exact (proj1 I). Qed.
Lemma filtered_in (P : text -> bool) t f : In f (filter P t) -> In f t.
Proof. intros I. apply filter_In in I. exact (proj1 I). Qed.
Lemma sdist_only t f : In f (sdist t) -> In f t.
Proof.
  unfold sdist, defaults. intros I. apply in_app_or in I. destruct I as [I|I]; [|exact (included_in manifest t f I)].
  apply in_app_or in I. destruct I as [I|I]; [exact (filtered_in _ t f I)|]. apply in_app_or in I. destruct I as [I|I]; [exact (packaged_in modules t f I)|exact (filtered_in _ t f I)].
Qed.
Lemma unused p : In p (patterns manifest) -> ((forall f, In f tree -> ~ matches p f) <-> In p gone).
Proof.
  rewrite (in_dec_b p gone). intros I.
  assert (forallb (fun p => Bool.eqb (negb (existsb (glob p) tree)) (existsb (text_eqb p) gone)) (patterns manifest) = true) as H by (vm_compute; reflexivity).
  apply (check_all _ _ H) in I. apply eqb_prop in I. rewrite <- I, negb_true_iff. split.
  - intros N. apply not_true_iff_false. intros E. apply existsb_exists in E. destruct E as (f & F & G). apply glob_matches in G. exact (N f F G).
  - intros E f F M. apply glob_matches in M. assert (existsb (glob p) tree = true) by (apply existsb_exists; eauto). congruence.
Qed.
Lemma packages_complete f rest : In f tree -> f = T "ptrace/" ++ rest -> exists m, In m modules /\ In f (package_files m tree).
Proof.
  intros I E. assert ((fun l => forallb (fun f => negb (starts_with (T "ptrace/") f) || existsb (existsb (text_eqb f)) l) tree) (map (fun m => package_files m tree) modules) = true)%bool as H by (vm_compute; reflexivity).
  apply (check_all _ _ H) in I. assert (starts_with (T "ptrace/") f = true) as S by (rewrite E; apply starts_with_app). rewrite S in I. cbn [negb orb] in I.
  apply existsb_exists in I. destruct I as (l & M & I). apply in_map_iff in M. destruct M as (m & <- & M). exists m. split; [exact M|apply in_dec_b; exact I].
Qed.
Lemma packages_init m : In m modules -> In (package_dir m ++ T "/__init__.py") tree /\ forall parent name, m = parent ++ "." :: name -> ~ In "." name -> In parent modules.
Proof.
  intros I. split.
  - assert (forallb (fun m => existsb (text_eqb (package_dir m ++ T "/__init__.py")) tree) modules = true) as H by (vm_compute; reflexivity).
    apply (check_all _ _ H) in I. apply in_dec_b; exact I.
  - intros parent name E N.
    assert (forallb (fun m => match rsplit1 "." m with Some (p, _) => existsb (text_eqb p) modules | None => true end) modules = true) as H by (vm_compute; reflexivity).
    apply (check_all _ _ H) in I. assert (rsplit1 "." m = Some (parent, name)) as R.
    { subst m. unfold rsplit1. rewrite rev_app_distr. cbn [rev]. rewrite <- app_assoc. cbn [app].
      assert (split1 "." (rev name ++ "." :: rev parent) = Some (rev name, rev parent)) as ->; [|now rewrite !rev_involutive].
      assert (~ In "." (rev name)) as N' by (rewrite <- in_rev; exact N). revert N'. generalize (rev name). clear. intros t. induction t as [|x t IH]; intros N.
      - reflexivity.
      - cbn [app split1]. destruct (Ascii.eqb x ".") eqn:X; [apply eqb_eq in X; exfalso; apply N; now left|]. rewrite IH; [reflexivity|]. intros J. apply N. now right. }
    rewrite R in I. apply in_dec_b; exact I.
Qed.
Lemma reads_shipped f : In f (setup_reads ++ setup_cptrace_reads ++ scripts) -> In f (sdist tree).
Proof.
  intros I. assert ((fun d => forallb (fun f => existsb (text_eqb f) d) (setup_reads ++ setup_cptrace_reads ++ scripts)) (sdist tree) = true) as H by (vm_compute; reflexivity).
  apply (check_all _ _ H) in I. apply in_dec_b; exact I.
Qed.
Lemma version_parts v : v <> [] -> split_char "." (version_text v) = map str_int v.
Proof.
  intros N. apply split_join; [destruct v; [congruence|discriminate]|]. intros x I J. apply in_map_iff in I. destruct I as (n & <- & _).
  pose proof (str_int_chars n) as F. rewrite Forall_forall in F. apply F in J. discriminate.
Qed.
Lemma argv_removed before after : Forall (fun a => a <> T "--setuptools") before ->
  cptrace_argv (before ++ T "--setuptools" :: after) = (true, before ++ after) /\ (Forall (fun a => a <> T "--setuptools") after -> cptrace_argv (before ++ after) = (false, before ++ after)).
Proof.
  intros F. unfold cptrace_argv. split.
  - assert (existsb (text_eqb (T "--setuptools")) (before ++ T "--setuptools" :: after) = true) as -> by (rewrite <- in_dec_b; apply in_or_app; right; now left).
    f_equal. induction F as [|x before X _ IH]; [reflexivity|]. cbn [app remove_arg]. destruct (text_eqb x (T "--setuptools")) eqn:E; [apply text_eqb_eq in E; contradiction|]. now rewrite IH.
  - intros G. assert (existsb (text_eqb (T "--setuptools")) (before ++ after) = false) as ->; [|reflexivity].
    apply not_true_iff_false. rewrite <- in_dec_b. intros I. assert (Forall (fun a => a <> T "--setuptools") (before ++ after)) as K by (now apply Forall_app). rewrite Forall_forall in K. exact (K _ I eq_refl).
Qed.
Lemma sdist_lacks : exists f, In f tree /\ ~ In f (sdist tree).
Proof.
  exists (T ".gitignore"). assert (In (T ".gitignore") tree) as I by (apply in_dec_b; vm_compute; reflexivity). split; [exact I|].
  intros J. apply sdist_files in J; [|exact I]. apply J. right. right. now left.
Qed.
Lemma unused_all p : (In p (patterns manifest) /\ forall f, In f tree -> ~ matches p f) <-> In p gone.
Proof.
  split; [intros [I N]; now apply unused|]. intros G. assert (In p (patterns manifest)) as I; [|split; [exact I|now apply (unused p I)]].
  assert (forallb (fun p => existsb (text_eqb p) (patterns manifest)) gone = true) as H by (vm_compute; reflexivity).
  apply (check_all _ _ H) in G. now apply in_dec_b.
Qed.
Lemma other_line action rest : wordy action -> action <> T "include" -> line_patterns (action ++ " " :: rest) = [] /\ line_patterns ("#" :: rest) = [].
Proof.
  intros W N. split; [|reflexivity]. unfold line_patterns. rewrite no_comment_app by now apply wordy_hash. cbn [no_comment Ascii.eqb Bool.eqb]. destruct W as [Ne F].
  unfold split_ws. rewrite split_ws_aux_word by (eapply Forall_impl; [|exact F]; now intros c [S _]). rewrite app_nil_r.
  change (split_ws_aux (" " :: no_comment rest) (rev action)) with (match rev action with [] => split_ws_aux (no_comment rest) [] | _ => rev (rev action) :: split_ws_aux (no_comment rest) [] end).
  destruct (rev action) as [|x l] eqn:E; [exfalso; apply Ne; rewrite <- (rev_involutive action), E; reflexivity|]. rewrite <- E, rev_involutive.
  destruct (text_eqb action (T "include")) eqn:Q; [apply text_eqb_eq in Q; contradiction|reflexivity].
Qed.
