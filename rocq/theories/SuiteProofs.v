(** * SuiteProofs: the output of strace.py line by line (C137). *)
From Coq Require Import ZArith List Ascii String Bool Lia.
From Verif Require Import PyBase PyFacts Platform IntModel IntSpec IntProofs RegModel SigModel TabModel TabSpec TabProofs ToolsModel RegexModel RegexSpec RegexProofs ArgModel ArgSpec ArgProofs ArgProofs2
  DbgModel DbgSpec SysModel SysSpec SysProofs SysProofs2 LogModel StraceModel StraceSpec StorySpec StoryProofs StoryProofs2 StoryProofs3 CmdModel CmdSpec CmdProofs CmdProofs2 OutModel OutSpec OutProofs ShownSpec ShownProofs SuiteModel SuiteSpec.
Import ListNotations.
Open Scope Z_scope.

(** ** Lines *)
Lemma lines_app a b : text_of_lines (a ++ b) = text_of_lines a ++ text_of_lines b.
Proof. induction a as [|t a IH]; [reflexivity|]. cbn [app text_of_lines]. rewrite IH, <- app_assoc. reflexivity. Qed.
Lemma lines_end l : text_of_lines l = [] \/ exists b, text_of_lines l = b ++ [z2b 10].
Proof.
  induction l as [|t l IH]; [now left|]. right. cbn [text_of_lines]. destruct IH as [-> | (b & ->)]; [now exists t|]. exists (t ++ z2b 10 :: b). now rewrite <- app_assoc.
Qed.
Lemma in_lines t l : In t l -> exists before after, text_of_lines l = before ++ t ++ z2b 10 :: after /\ (before = [] \/ exists b, before = b ++ [z2b 10]).
Proof.
  intros H. apply in_split in H as (l1 & l2 & ->). exists (text_of_lines l1), (text_of_lines l2). split; [|apply lines_end]. rewrite lines_app. reflexivity.
Qed.
Lemma has_prefix l t u : In (t ++ u) l -> has_line (text_of_lines l) t.
Proof. intros H. apply in_lines in H as (b & a & -> & Hb). exists b, (u ++ z2b 10 :: a). split; [now rewrite <- app_assoc|exact Hb]. Qed.

(** ** Searching *)
Lemma msearch_complete r pre : forall b w rest c, at_line (rev pre ++ b) = true -> den r (rev pre ++ b) w rest [] c -> msearch_from r b (pre ++ w ++ rest) <> None.
Proof.
  induction pre as [|y pre IH]; intros b w rest c Hb H; cbn [app].
  - cbn [rev app] in H, Hb. apply match_at_complete in H. destruct (w ++ rest) as [|z s]; cbn [msearch_from]; rewrite Hb; (destruct (match_at r (b, _)); [discriminate|congruence]).
  - cbn [msearch_from]. destruct (if at_line b then match_at r (b, y :: pre ++ w ++ rest) else None); [discriminate|].
    cbn [rev] in H, Hb. rewrite <- app_assoc in H, Hb. exact (IH (y :: b) w rest c Hb H).
Qed.
Lemma line_start before : before = [] \/ (exists b, before = b ++ [z2b 10]) -> at_line (rev before ++ []) = true.
Proof. intros [-> | (b & ->)]; [reflexivity|]. rewrite rev_app_distr. reflexivity. Qed.
Lemma found_line r output t : has_line output t -> (forall b rest, exists c w rest', t = w ++ rest' /\ den r b w (rest' ++ rest) [] c) -> found r output = true.
Proof.
  intros (before & after & -> & Hb) H. unfold found, msearch. destruct (H (rev before ++ []) after) as (c & w & rest' & -> & Hd).
  rewrite <- app_assoc. pose proof (msearch_complete r before [] w (rest' ++ after) c (line_start before Hb) Hd) as Hm.
  destruct (msearch_from r [] (before ++ w ++ rest' ++ after)); [reflexivity|congruence].
Qed.
Lemma found_text output t : has_line output t -> found (rtext t) output = true.
Proof. intros H. apply (found_line _ _ t H). intros b rest. exists [], t, []. split; [now rewrite app_nil_r|]. now apply den_text. Qed.
Lemma has_line_app output t u : has_line output (t ++ u) -> has_line output t.
Proof. intros (b & a & -> & H). exists b, (u ++ a). split; [now rewrite <- app_assoc|exact H]. Qed.

Section Suite.
  Context (p : platform) (ns : namespace) (repr_fs : list byte -> text) (errorcode : list (Z * text)) (strerror : Z -> text).
  Notation strace_run := (strace_run p ns repr_fs errorcode strerror).
  Notation story_of o := (story p ns repr_fs errorcode strerror o []).
  Notation end_of o := (end_lines p ns repr_fs o []).
  Definition line_text (l : tline) : text := match l with LSyscall _ _ t | LNewProcess _ t | LLine t => t | LError _ => [] end.
  Definition no_error (l : tline) : Prop := forall x, l <> LError x.

  Lemma line_of_call o pid id z c c' x : line_of p ns repr_fs o pid id z c c' x -> no_error x.
  Proof. intros (t & _ & _ & ->) e. discriminate. Qed.
  Lemma call_no_error o pid id a b z l1 l2 : call_lines p ns repr_fs errorcode strerror o [] pid id a b z l1 l2 -> Forall no_error l1 /\ Forall no_error l2.
  Proof.
    intros [c _ _|c c0 c1 c2 c3 t l x _ _ _ Ha _ Hx]; [split; constructor|]. split; [|constructor; [exact (line_of_call _ _ _ _ _ _ _ Hx)|constructor]].
    unfold announced in Ha. destruct (s_enter o); [destruct Ha as (y & Hy & ->); constructor; [exact (line_of_call _ _ _ _ _ _ _ Hy)|constructor]|destruct Ha as [_ ->]; constructor].
  Qed.
  Lemma story_no_error o pid id acts l : story_of o pid id acts l -> Forall no_error l.
  Proof.
    induction 1 as [|a b l1 l2 acts l H _ _ IH|a b z l1 l2 acts l H _ _ _ IH|a b l1 l2 acts l H _ _ IH|s acts l _ IH]; [constructor| | | |exact IH];
      apply call_no_error in H as [H1 H2]; apply Forall_app; (split; [exact H1|]); try (constructor; [intros x; discriminate|]); apply Forall_app; auto.
  Qed.
  Lemma end_no_error o pid id e l : end_of o pid id e l -> Forall no_error l.
  Proof. intros H. destruct H; repeat constructor; try (intros y; discriminate); eapply line_of_call; eassumption. Qed.
  Lemma texts_no_error show l : Forall no_error l -> flat_map (line_texts show) l = map line_text l.
  Proof. induction 1 as [|x l Hx _ IH]; [reflexivity|]. cbn [flat_map map]. rewrite IH. destruct x; try reflexivity. exfalso. exact (Hx x eq_refl). Qed.

  (** The output and the status *)
  Lemma run_output pid x l acts e output status : strace_run pid x l acts e output status -> exists lines last_lines,
    story_of (test_options (x :: l)) pid 0 acts lines /\ end_of (test_options (x :: l)) pid 0 e last_lines /\
    output = text_of_lines (execve_line x (x :: l) pid :: map line_text (lines ++ last_lines)) /\ deadly (meaning e) /\
    status = match meaning e with Exited c => c | _ => signal_code acts 0 mod 256 end.
  Proof.
    intros (temp & name & names & compile & locate & show & open_w & profile & dump & stats & files & K & stops & child & first & asked & rounds & fuel & lines & last_lines &
            Hl & Hn & Hpid & Htemp & Hopen & Hloc & Hchild & Hb & Hp & Hs & He & Hr & H).
    set (traced := fun o only => strace_main p ns repr_fs errorcode strerror K stops o only child rounds (S (S fuel)) (start p)) in H.
    set (items := [IStr (T "-o") temp]). assert (Forall strace_item items) as Hi by (repeat constructor).
    assert (test_args temp (name :: l) = flat_map render items ++ T "--" :: name :: l) as Ea by reflexivity. rewrite Ea in H.
    pose proof (strace_start p compile locate items name l Hi eq_refl eq_refl) as Hst. cbv zeta in Hst. destruct Hst as (values & Hst).
    assert (exists sn, SOCKET_SYSCALL_NAMES p = Ok sn) as (sn & Hsn).
    { unfold SYSCALL_NAMES in Hn. unfold SOCKET_SYSCALL_NAMES. destruct (p_os p); [destruct (p_cpu p); try discriminate Hn| | |]; eexists; reflexivity. }
    unfold parse_filter in Hst. rewrite Hn, Hsn in Hst. cbn [bind] in Hst. rewrite Hloc in Hst.
    change (strace_parse p compile locate (flat_map render items ++ T "--" :: name :: l) = Ok (Run (test_options (x :: l), [], values))) in Hst.
    pose proof (to_file p compile locate traced show open_w profile dump stats items (name :: l) files _ _ _ temp Hi Hst eq_refl eq_refl Htemp Hopen) as Hf.
    destruct (whole_run p ns repr_fs errorcode strerror K stops (test_options (x :: l)) [] child pid Hl Hpid acts e first asked lines last_lines fuel rounds Hb Hp Hs He Hr) as (st' & Hm & Hlog & _).
    unfold traced in Hf at 1. rewrite Hm in Hf. cbv zeta in Hf. destruct Hf as (Hf & _ & _ & _ & _ & Hstat & _). fold traced in Hf, Hstat. cbv zeta in H. destruct H as [H1 H2]. rewrite Hf in H1. injection H1 as <-.
    assert (deadly (meaning e)) as Hd.
    { clear - Hp. revert Hp. generalize (List.length asked). induction acts as [|[a b|a b z|a b|s] acts IH]; intros n Hp; cbn [performs] in Hp; repeat (let H := fresh in destruct Hp as [H Hp]); eauto.
      destruct e; cbn [ends meaning] in *; intuition. }
    exists lines, last_lines. split; [exact Hs|]. split; [exact He|]. split; [|split; [exact Hd|]].
    - unfold trace_text. rewrite oldest_rev, Hlog. inversion Hb as [x' l' H3 H4 H5 H6 H7 H8 H9 H10|]; subst; [|discriminate].
      cbn [test_options s_program] in H5. injection H5 as -> ->. cbn [flat_map line_texts]. cbn [app]. rewrite (texts_no_error _ (lines ++ last_lines)); [reflexivity|].
      apply Forall_app. split; [exact (story_no_error _ _ _ _ _ Hs)|exact (end_no_error _ _ _ _ _ He)].
    - rewrite <- H2, Hstat. now apply program_status.
  Qed.
End Suite.
