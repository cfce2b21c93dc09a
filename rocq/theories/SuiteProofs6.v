(** * SuiteProofs6: the tests of the names of the calls and of getcwd() (C137). *)
From Coq Require Import ZArith List Ascii String Bool Lia.
From Verif Require Import PyBase PyFacts Platform IntModel IntSpec IntProofs RegModel SigModel TabModel TabSpec TabProofs ToolsModel ToolsProofs RegexModel RegexSpec RegexFacts RegexProofs ArgModel ArgSpec ArgProofs ArgProofs2
  DbgModel DbgSpec SysModel SysSpec SysProofs SysProofs2 LogModel StraceModel StraceSpec StorySpec StoryProofs StoryProofs2 StoryProofs3 OutModel OutSpec ShownSpec ShownProofs SuiteModel SuiteSpec SuiteProofs SuiteProofs2 SuiteProofs3 SuiteProofs4.
Import ListNotations.
Open Scope Z_scope.
#[local] Opaque SYSCALL_PROTOTYPES SYSCALL_ARG_DICT.

(** ** The names *)
Section Names.
  Context (p : platform) (ns : namespace) (repr_fs : list byte -> text) (errorcode : list (Z * text)) (strerror : Z -> text).
  Notation strace_run := (strace_run p ns repr_fs errorcode strerror).
  Context (pid : Z) (x : text) (l : list text) (acts : list act) (e : ending) (output : text) (status : Z) (Hrun : strace_run pid x l acts e output status).

  Lemma entered_names a name values c c0 : running_linux p = true -> entered p a name values -> name <> T "socketcall" -> enters p a c ->
    with_arguments p ns repr_fs (test_options (x :: l)) a c c0 -> f_name (c_func c0) = name /\ c_result c0 = None.
  Proof.
    intros Hlin He Hs Hc (regs & _ & Hen). destruct (entered_call p a name values Hlin He c Hc) as [Ec Er].
    destruct (enter_plain p ns repr_fs _ _ _ _ _ _ Hen) as (vs & _ & H1 & _ & H2 & _).
    - rewrite Ec. unfold replaced. cbn [f_name]. replace (text_eqb name (T "socketcall")) with false; [reflexivity|symmetry; apply text_eqb_neq; exact Hs].
    - now rewrite Ec.
    - split; [rewrite H1, Ec; reflexivity|now rewrite H2].
  Qed.
  Lemma line_name z c c' y : line_of p ns repr_fs (test_options (x :: l)) pid 0%nat z c c' y -> exists u, line_text y = f_name (c_func c) ++ T "(" ++ u.
  Proof.
    intros (t & Hf & _ & ->). apply format_spec in Hf as (texts & kept & _ & _ & -> & _). cbn [line_text test_options s_show_pid s_fork s_show_ip orb shown_line app].
    rewrite andb_false_r. cbn [app]. destruct (c_result c); [|eexists; reflexivity]. rewrite columns_app. rewrite <- !app_assoc. eexists; reflexivity.
  Qed.
  Lemma linux : running_linux p = true.
  Proof. clear - Hrun. destruct Hrun as (? & ? & ? & ? & ? & ? & ? & ? & ? & ? & ? & ? & ? & ? & ? & ? & ? & ? & ? & ? & H & _). exact H. Qed.

  Lemma name_shown a b name : In (ACall a b) acts -> entered p a name [] -> name <> T "socketcall" -> has_line output (name ++ T "(").
  Proof.
    intros Hin He Hs. pose proof linux as Hlin. apply run_output in Hrun as (ls & le & Hst & _ & -> & _).
    assert (exists y u, In y ls /\ line_text y = name ++ T "(" ++ u) as (y & u & Hy & Ey).
    { induction Hst as [|a' b' l1 l2 acts ls H _ _ IH|a' b' z l1 l2 acts ls H _ _ _ IH|a' b' l1 l2 acts ls H Ht _ IH|s acts ls _ IH].
      - destruct Hin.
      - destruct Hin as [E|Hin].
        + injection E as -> ->. inversion H as [c Hc Hsel|c c0 c1 c2 c3 t l0 y Hc _ Hw Ha Hx Hy]; subst.
          { exfalso. apply Hsel. split; [left; reflexivity|]. intros m Hm. discriminate Hm. }
          unfold announced in Ha. cbn [test_options s_enter] in Ha. destruct Ha as [-> ->].
          destruct (entered_names a name [] c c0 Hlin He Hs Hc Hw) as [E1 _]. destruct (line_name _ _ _ _ Hy) as (u & Eu). exists y, u. split; [apply in_or_app; right; now left|].
          rewrite Eu. do 2 f_equal. unfold exit_ in Hx. destruct (st_result b) as [r|]; cbn [bind] in Hx; [|discriminate Hx]. cbv zeta in Hx. destruct (result_text _ _ _ _ _) as [v w]. injection Hx as <- _.
          cbn [c_func set_args f_name]. exact E1.
        + destruct (IH Hin) as (y & u & H1 & H2). exists y, u. split; [|exact H2]. apply in_or_app. right. apply in_or_app. now right.
      - destruct Hin as [E|Hin]; [discriminate E|]. destruct (IH Hin) as (y & u & H1 & H2). exists y, u. split; [|exact H2]. apply in_or_app. right. apply in_or_app. now right.
      - discriminate Ht.
      - destruct Hin as [E|Hin]; [discriminate E|exact (IH Hin)]. }
    apply (has_prefix _ _ u). right. rewrite <- app_assoc, <- Ey. apply in_map. apply in_or_app. now left.
  Qed.
  Lemma last_shown a z m name : e = EndedInside a z m -> entered p a name [] -> name <> T "socketcall" -> has_line output (name ++ T "(").
  Proof.
    intros Ee He Hs. pose proof linux as Hlin. apply run_output in Hrun as (ls & le & _ & Hend & -> & _). rewrite Ee in Hend.
    inversion Hend as [|? ? ? c Hc Hsel|? ? ? c c0 c1 y Hen|? ? ? c c0 c1 y _ Hc _ Hw Hy]; subst.
    - exfalso. apply Hsel. split; [left; reflexivity|]. intros k Hk. discriminate Hk.
    - discriminate Hen.
    - destruct (entered_names a name [] c c0 Hlin He Hs Hc Hw) as [E1 _]. destruct (line_name _ _ _ _ Hy) as (u & Eu). rewrite E1 in Eu.
      apply (has_prefix _ _ u). right. rewrite <- app_assoc, <- Eu. apply in_map. apply in_or_app. right. now left.
  Qed.
  Lemma basic_ok a1 b1 n1 a2 b2 n2 a3 z m n3 : In (ACall a1 b1) acts -> entered p a1 (T "mmap" ++ n1) [] -> In (ACall a2 b2) acts -> entered p a2 (T "open" ++ n2) [] ->
    e = EndedInside a3 z m -> entered p a3 (T "exit" ++ n3) [] -> test_basic output = true.
  Proof.
    intros I1 E1 I2 E2 I3 E3. unfold test_basic. rewrite (traceback _ _ _ _ _ _ _ _ _ _ _ _ Hrun). cbn [andb forallb].
    pose proof (name_shown _ _ _ I1 E1 ltac:(discriminate)) as H1. pose proof (name_shown _ _ _ I2 E2 ltac:(discriminate)) as H2. pose proof (last_shown _ _ _ _ I3 E3 ltac:(discriminate)) as H3.
    rewrite <- app_assoc in H1, H2, H3. apply has_line_app, found_text in H1, H2, H3. now rewrite H1, H2, H3.
  Qed.
End Names.

(** ** The first line that matches *)
Lemma no_start t line rest b : one_line t -> one_line line -> starts_with t line = false -> forall r, r <> [] -> match_at (rcat (rtext t :: r)) (b, line ++ z2b 10 :: rest) = None.
Proof.
  intros Ht Hl Hs r Hr. destruct (match_at _ _) as [m|] eqn:E; [|reflexivity]. exfalso. apply match_at_sound in E as (E & _ & Hd). apply den_cat_cons in Hd; [|exact Hr].
  destruct Hd as (w1 & w2 & c1 & Ew & H1 & _). apply den_text in H1 as [-> _]. rewrite Ew, <- app_assoc in E. clear - E Ht Hl Hs.
  revert line Hl Hs E. induction t as [|c t IH]; intros [|d line] Hl Hs E; cbn [app] in E.
  - discriminate Hs.
  - discriminate Hs.
  - injection E as E _. apply Ht. left. now symmetry.
  - injection E as <- E. cbn [starts_with] in Hs. rewrite Ascii.eqb_refl in Hs. cbn [andb] in Hs. apply (IH ltac:(intros H; apply Ht; now right) line ltac:(intros H; apply Hl; now right) Hs E).
Qed.
Lemma skip_line r u : forall b rest, one_line u -> at_line b = false -> (forall c, In c u -> c <> newline) -> msearch_from r b (u ++ z2b 10 :: rest) = msearch_from r (z2b 10 :: rev u ++ b) rest.
Proof.
  induction u as [|c u IH]; intros b rest Hu Hb Hn; cbn [app msearch_from rev]; rewrite Hb; [reflexivity|].
  rewrite IH; [now rewrite <- app_assoc|intros H; apply Hu; now right| |intros d Hd; apply Hn; now right].
  cbn [at_line]. destruct (Ascii.eqb c newline) eqn:E; [|reflexivity]. apply Ascii.eqb_eq in E. exfalso. exact (Hn c (or_introl eq_refl) E).
Qed.
Lemma skip_lines t r lines : one_line t -> r <> [] -> Forall (fun u => one_line u /\ starts_with t u = false) lines -> forall b rest, at_line b = true ->
  exists b', at_line b' = true /\ msearch_from (rcat (rtext t :: r)) b (text_of_lines lines ++ rest) = msearch_from (rcat (rtext t :: r)) b' rest.
Proof.
  intros Ht Hr H. induction H as [|u lines [Hu Hs] _ IH]; intros b rest Hb; [now exists b|]. cbn [text_of_lines]. rewrite <- app_assoc. cbn [app].
  assert (msearch_from (rcat (rtext t :: r)) b (u ++ z2b 10 :: text_of_lines lines ++ rest) = msearch_from (rcat (rtext t :: r)) (z2b 10 :: rev u ++ b) (text_of_lines lines ++ rest)) as ->.
  { pose proof (no_start t u (text_of_lines lines ++ rest) b Ht Hu Hs r Hr) as Hm. destruct u as [|c u]; cbn [app msearch_from] in *; rewrite Hb, Hm; [reflexivity|].
    rewrite skip_line; [cbn [rev]; now rewrite <- app_assoc|intros H; apply Hu; now right| |].
    - cbn [at_line]. destruct (Ascii.eqb c newline) eqn:E; [|reflexivity]. apply Ascii.eqb_eq in E. exfalso. apply Hu. left. exact E.
    - intros d Hd E. apply Hu. right. subst d. exact Hd. }
  apply IH. reflexivity.
Qed.

(** ** The last comma *)
Section Greedy.
  Context {R : Type} (f : ascii -> bool) (k : pos -> caps -> option R) (c : caps).
  Lemma star_none u : forall fuel b s, (List.length u < fuel)%nat -> Forall (fun x => f x = true) u -> match s with [] => True | x :: _ => f x = false end ->
    (forall u1 u2, u = u1 ++ u2 -> k (rev u1 ++ b, u2 ++ s) c = None) -> star (mat (RSet f)) fuel (b, u ++ s) c k = None.
  Proof.
    induction u as [|x u IH]; intros fuel b s Hf Hu Hs Hk; (destruct fuel as [|fuel]; [cbn in Hf; lia|]); cbn [app star mat fst snd].
    - pose proof (Hk [] [] eq_refl) as H. cbn [rev app] in H. destruct s as [|y s]; [exact H|]. rewrite Hs. exact H.
    - inversion Hu as [|? ? Hx Hu']; subst. rewrite Hx. cbn [fst snd]. replace (Nat.ltb (List.length (u ++ s)) (List.length (x :: u ++ s))) with true by (symmetry; apply Nat.ltb_lt; cbn; lia).
      rewrite IH; [exact (Hk [] (x :: u) eq_refl)|cbn in Hf; lia|exact Hu'|exact Hs|]. intros u1 u2 E. specialize (Hk (x :: u1) u2). cbn [app rev] in Hk. rewrite <- app_assoc in Hk. apply Hk. now rewrite E.
  Qed.
  Lemma star_last w : forall fuel b u s r, (List.length (w ++ u) < fuel)%nat -> Forall (fun x => f x = true) (w ++ u) -> match s with [] => True | x :: _ => f x = false end ->
    k (rev w ++ b, u ++ s) c = Some r -> (forall u1 u2, u = u1 ++ u2 -> u1 <> [] -> k (rev (w ++ u1) ++ b, u2 ++ s) c = None) -> star (mat (RSet f)) fuel (b, w ++ u ++ s) c k = Some r.
  Proof.
    induction w as [|x w IH]; intros fuel b u s r Hf Hu Hs Hk Hn; (destruct fuel as [|fuel]; [cbn in Hf; lia|]).
    - cbn [app rev] in *. destruct u as [|y u]; cbn [app star mat fst snd].
      + cbn [app] in Hk. destruct s as [|z s]; [exact Hk|]. now rewrite Hs.
      + inversion Hu as [|? ? Hy Hu']; subst. rewrite Hy. replace (Nat.ltb (List.length (u ++ s)) (List.length (y :: u ++ s))) with true by (symmetry; apply Nat.ltb_lt; cbn; lia).
        rewrite star_none; [exact Hk|cbn in Hf; lia|exact Hu'|exact Hs|]. intros u1 u2 E. specialize (Hn (y :: u1) u2). cbn [app rev] in Hn. rewrite <- app_assoc in Hn. apply Hn; [now rewrite E|discriminate].
    - cbn [app star mat fst snd]. cbn [app] in Hu, Hf. inversion Hu as [|? ? Hx Hu']; subst. rewrite Hx. cbn [fst snd].
      replace (Nat.ltb (List.length (w ++ u ++ s)) (List.length (x :: w ++ u ++ s))) with true by (symmetry; apply Nat.ltb_lt; cbn; lia).
      match goal with |- match ?A with _ => _ end = _ => change A with (star (mat (RSet f)) fuel (x :: b, w ++ u ++ s) c k) end. rewrite (IH fuel (x :: b) u s r); [reflexivity|cbn in Hf; lia|exact Hu'|exact Hs| |].
      + cbn [rev] in Hk. now rewrite <- app_assoc in Hk.
      + intros u1 u2 E Hne. specialize (Hn u1 u2 E Hne). cbn [app rev] in Hn. now rewrite <- app_assoc in Hn.
  Qed.
End Greedy.
Lemma mat_text {R} t : forall b s c (k : pos -> caps -> option R), mat (rtext t) (b, t ++ s) c k = k (rev t ++ b, s) c.
Proof.
  induction t as [|x t IH]; intros b s c k; [reflexivity|]. destruct t as [|y t].
  - cbn [rtext rchar mat fst snd app rev]. now rewrite Ascii.eqb_refl.
  - change (mat (RCat (rchar x) (rtext (y :: t))) (b, x :: (y :: t) ++ s) c k = k (rev (x :: y :: t) ++ b, s) c). cbn [mat rchar fst snd]. rewrite Ascii.eqb_refl, IH. cbn [rev]. now rewrite <- !app_assoc.
Qed.
Lemma getcwd_match b w u rest : one_line w -> one_line u -> ~ In ","%char u ->
  exists m, match_at re_getcwd (b, T "getcwd(" ++ w ++ ","%char :: u ++ z2b 10 :: rest) = Some m /\ group 1 (m_groups m) = Some w.
Proof.
  intros Hw Hu Hc. unfold match_at, re_getcwd. cbn [rcat]. change (mat (RCat (rtext (T "getcwd(")) (RCat (RGroup 1 (RStar rdot)) (rchar ",")))) with
    (fun (p : pos) c (k : pos -> caps -> option (pos * caps)) => mat (rtext (T "getcwd(")) p c (fun p c => mat (RCat (RGroup 1 (RStar rdot)) (rchar ",")) p c k)). cbv beta.
  rewrite mat_text.
  match goal with |- context [mat (RCat (RGroup ?n (RStar rdot)) (rchar ?y)) ?p ?c ?k] => change (mat (RCat (RGroup n (RStar rdot)) (rchar y)) p c k) with
    (star (mat rdot) (S (List.length (snd p))) p c (fun p' c' => mat (rchar y) p' (dset Nat.eqb n (firstn (List.length (snd p) - List.length (snd p')) (snd p)) c') k)) end.
  assert (Forall (fun x => negb (Ascii.eqb x newline) = true) (w ++ ","%char :: u)) as Hdots.
  { apply Forall_forall. intros y Hy. destruct (Ascii.eqb y newline) eqn:E; [|reflexivity]. apply Ascii.eqb_eq in E. subst y. apply in_app_or in Hy as [Hy|[Hy|Hy]]; [destruct (Hw Hy)|discriminate Hy|destruct (Hu Hy)]. }
  set (b1 := rev (T "getcwd(") ++ b).
  unfold rdot. change (w ++ ","%char :: u ++ z2b 10 :: rest) with (w ++ (","%char :: u) ++ z2b 10 :: rest). erewrite (star_last _ _ [] w _ b1 (","%char :: u) (z2b 10 :: rest) ((","%char :: rev w ++ b1, u ++ z2b 10 :: rest), dset Nat.eqb 1%nat w [])); [| |exact Hdots|reflexivity| |].
  - eexists. split; [reflexivity|]. cbn [m_groups]. reflexivity.
  - cbn [snd]. repeat (rewrite ?app_length; cbn [List.length]). lia.
  - cbn [app fst snd rchar mat]. change (Ascii.eqb "," ",") with true. cbv iota. rewrite firstn_part. reflexivity.
  - intros u1 u2 E Hne. destruct u1 as [|y u1]; [congruence|]. cbn [app] in E. injection E as <- E. cbn [fst snd rchar mat]. destruct u2 as [|z u2]; cbn [app]; [reflexivity|].
    destruct (Ascii.eqb "," z) eqn:Ez; [|reflexivity]. apply Ascii.eqb_eq in Ez. subst z. exfalso. apply Hc. rewrite E. apply in_or_app. right. now left.
Qed.

(** ** getcwd() *)
Definition calm (t : text) : Prop := Forall (fun c => c <> z2b 10 /\ c <> ","%char) t.
Lemma calm_const t : forallb (fun c => negb (Ascii.eqb c (z2b 10)) && negb (Ascii.eqb c ","%char)) t = true -> calm t.
Proof.
  intros H. apply Forall_forall. intros c Hc. rewrite forallb_forall in H. apply H in Hc. apply andb_prop in Hc as [H1 H2]. apply negb_true_iff in H1, H2.
  split; intros ->; [discriminate H1|discriminate H2].
Qed.
Lemma calm_app a b : calm a -> calm b -> calm (a ++ b).
Proof. intros H1 H2. apply Forall_app. auto. Qed.
Lemma calm_int n : calm (str_int n).
Proof.
  apply str_int_chars; [split; discriminate|]. apply (zrange_Forall (fun d => digit_char d <> z2b 10 /\ digit_char d <> ","%char) 10). repeat constructor; discriminate.
Qed.
Lemma calm_hex ds v : hex_reads ds v -> calm ds.
Proof.
  assert (forall c d, position c hex_alphabet = Some d -> c <> z2b 10 /\ c <> ","%char) as H by (intros c d Hp; split; intros ->; discriminate Hp).
  induction 1 as [c d Hc|ds v c d _ IH Hc]; [constructor; [exact (H _ _ Hc)|constructor]|]. apply calm_app; [exact IH|]. constructor; [exact (H _ _ Hc)|constructor].
Qed.
Lemma calm_spaces n : calm (repeat " "%char n).
Proof. induction n; constructor; [split; discriminate|assumption]. Qed.
Lemma calm_facts t : calm t -> one_line t /\ ~ In ","%char t.
Proof. intros H. unfold calm in H. rewrite Forall_forall in H. split; intros Hin; destruct (H _ Hin) as [H1 H2]; congruence. Qed.

Section Getcwd.
  Context (p : platform) (ns : namespace) (repr_fs : list byte -> text) (errorcode : list (Z * text)) (strerror : Z -> text).
  Notation strace_run := (strace_run p ns repr_fs errorcode strerror).
  Notation story_of o := (story p ns repr_fs errorcode strerror o []).

  Lemma story_split o pid id acts1 a b acts2 : forall ls, story_of o pid id (acts1 ++ ACall a b :: acts2) ls -> exists l0 l1 l2 l3,
    ls = l0 ++ l1 ++ l2 ++ l3 /\ story_of o pid id acts1 l0 /\ call_lines p ns repr_fs errorcode strerror o [] pid id a b b l1 l2.
  Proof.
    induction acts1 as [|y acts1 IH]; intros ls H; cbn [app] in H.
    - inversion H; subst. exists [], l1, l2, l. split; [reflexivity|]. split; [constructor|assumption].
    - inversion H; subst; match goal with Hs : story _ _ _ _ _ _ _ _ _ (_ ++ _) _ |- _ => apply IH in Hs as (k0 & k1 & k2 & k3 & -> & Q1 & Q2) end.
      + exists (l1 ++ l2 ++ k0), k1, k2, k3. split; [now rewrite <- !app_assoc|]. split; [econstructor; eassumption|exact Q2].
      + exists (l1 ++ l2 ++ k0), k1, k2, k3. split; [now rewrite <- !app_assoc|]. split; [econstructor; eassumption|exact Q2].
      + exists (l1 ++ execution_line pid :: l2 ++ k0), k1, k2, k3. split; [now rewrite <- !app_assoc, <- app_comm_cons, <- !app_assoc|]. split; [econstructor; eassumption|exact Q2].
      + exists k0, k1, k2, k3. split; [reflexivity|]. split; [econstructor; eassumption|exact Q2].
  Qed.

  Lemma getcwd_ok pid x l acts1 a b acts2 e output status ptr size cwd n before : strace_run pid x l (acts1 ++ ACall a b :: acts2) e output status ->
    entered p a (T "getcwd") [ptr; size] -> text_at b ptr cwd -> one_line (repr_fs cwd) -> returns p b n -> 0 <= n ->
    lines_before p ns repr_fs errorcode strerror pid x l acts1 before -> Forall (fun t => one_line t /\ starts_with (T "getcwd(") t = false) before ->
    test_getcwd (repr_fs cwd) output = true.
  Proof.
    intros Hrun He Ht H1l (r & Hr & Hr0 & Hs) Hn (ls0 & Hst0 & Eb) Hbefore. unfold test_getcwd. rewrite (traceback _ _ _ _ _ _ _ _ _ _ _ _ Hrun). cbn [andb].
    pose proof (linux _ _ _ _ _ _ _ _ _ _ _ _ Hrun) as Hlin.
    assert (p_cpu p <> OtherCPU) as Hcpu. { intros E. destruct He as (? & ? & ? & _ & H & _). rewrite E in H. discriminate H. }
    apply run_output in Hrun as (ls & le & Hst & _ & -> & _). apply story_split in Hst as (k0 & k1 & k2 & k3 & -> & Hk0 & Hcall).
    pose proof (story_one p ns repr_fs errorcode strerror (test_options (x :: l)) [] pid 0%nat acts1 _ _ Hk0 Hst0) as ->.
    assert (before = execve_line x (x :: l) pid :: map line_text ls0) as Eb2 by (rewrite Eb; f_equal; apply texts_no_error; exact (story_no_error _ _ _ _ _ _ _ _ _ _ Hst0)).
    rewrite Eb2 in Hbefore. clear Eb Eb2.
    destruct (call_text p ns repr_fs errorcode strerror (x :: l) pid 0%nat a b b k1 k2 (T "getcwd") (T "long") [(T "char *", T "pathname"); (T "unsigned long", T "size")] [ptr; size] Hlin Hcpu Hcall He
                ltac:(discriminate) eq_refl ltac:(proto) eq_refl) as (c & r' & texts & kept & HF & Hk & Hr' & -> & ->). rewrite Hr in Hr'. injection Hr' as <-. clear Hcall.
    shown_args HF.
    match goal with Hx : ArgModel.getText _ _ _ _ _ (Func ?call ?rt ?args) (Arg ptr (Some ?ty) (Some ?name) _) = Ok _ |- _ =>
      shown_by ptr (string_text p ns repr_fs b call rt args ptr ty name cwd ltac:(vm_compute; reflexivity) ltac:(vm_compute; reflexivity) ltac:(right; reflexivity) Ht) Hx end.
    shown_uint size. apply (kept_front [_]) in Hk as (rest & -> & Hk); [|apply str_int_some]. rewrite (Hk eq_refl). clear Hk.
    set (res := snd (result_text p errorcode strerror (T "long") r)).
    assert (calm res) as Hres.
    { destruct (result_spec p errorcode strerror (T "long") r n eq_refl Hs) as (_ & _ & R1 & R2). unfold res. destruct (Z_le_gt_dec n 9) as [H9|H9]; [rewrite (R1 (conj Hn H9)); apply calm_int|].
      destruct (R2 Hr0 (or_intror (Z.gt_lt _ _ H9))) as (hex & (ds & -> & Hds) & ->). repeat apply calm_app; try apply calm_int; try (apply calm_const; reflexivity). exact (calm_hex _ _ Hds). }
    set (call := T "getcwd" ++ T "(" ++ join (T ", ") ([repr_fs cwd] ++ [str_int size]) ++ T ")").
    set (u := T " " ++ str_int size ++ T ")" ++ repeat " "%char (40 - List.length call) ++ T " = " ++ res).
    assert (in_columns 40 call ++ T " = " ++ res = T "getcwd(" ++ repr_fs cwd ++ ","%char :: u) as Eline.
    { rewrite columns_app. unfold u. generalize (repeat " "%char (40 - List.length call)). intros pad. unfold call. txt. }
    assert (calm u) as Hu by (unfold u; repeat apply calm_app; try apply calm_int; try apply calm_spaces; try exact Hres; apply calm_const; reflexivity).
    apply calm_facts in Hu as [Hu1 Hu2].
    unfold msearch. rewrite <- !app_assoc, map_app, app_comm_cons, lines_app. change (map line_text ([] ++ [LSyscall 0 c (in_columns 40 call ++ T " = " ++ res)] ++ k3 ++ le)) with ((in_columns 40 call ++ T " = " ++ res) :: map line_text (k3 ++ le)). rewrite Eline.
    destruct (skip_lines (T "getcwd(") [RGroup 1 (RStar rdot); rchar ","%char] (execve_line x (x :: l) pid :: map line_text ls0) ltac:(now apply one_line_const) ltac:(discriminate) Hbefore []
                (T "getcwd(" ++ repr_fs cwd ++ ","%char :: u ++ z2b 10 :: text_of_lines (map line_text (k3 ++ le))) eq_refl) as (b' & Hb' & Em).
    match goal with |- context [msearch_from re_getcwd [] ?s] => replace (msearch_from re_getcwd [] s) with (msearch_from re_getcwd b' (T "getcwd(" ++ repr_fs cwd ++ ","%char :: u ++ z2b 10 :: text_of_lines (map line_text (k3 ++ le)))) end; [|symmetry; refine (eq_trans _ Em); apply (f_equal (msearch_from re_getcwd [])); apply f_equal; cbn [text_of_lines]; rewrite <- !app_assoc; reflexivity].
    destruct (getcwd_match b' (repr_fs cwd) u (text_of_lines (map line_text (k3 ++ le))) H1l Hu1 Hu2) as (m & Hm & Hg).
    cbn [T list_ascii_of_string app msearch_from] in *. rewrite Hb', Hm, Hg. apply text_eqb_refl.
  Qed.
End Getcwd.
