(** * SuiteProofs4: the tests (C137). *)
From Coq Require Import ZArith List Ascii String Bool Lia.
From Verif Require Import PyBase PyFacts Platform IntModel IntSpec IntProofs RegModel SigModel TabModel TabSpec TabProofs ToolsModel ToolsProofs RegexModel RegexSpec RegexProofs ArgModel ArgSpec ArgProofs ArgProofs2
  DbgModel DbgSpec SysModel SysSpec SysProofs SysProofs2 LogModel StraceModel StraceSpec StorySpec OutModel OutSpec ShownSpec ShownProofs SuiteModel SuiteSpec SuiteProofs SuiteProofs2 SuiteProofs3.
Import ListNotations.
Open Scope Z_scope.
#[local] Opaque SYSCALL_PROTOTYPES SYSCALL_ARG_DICT.

Ltac proto := apply has_prototype_dget; vm_compute; reflexivity.
(** the texts of the arguments *)
Ltac shown_args H := cbn [zip_args f_args] in H;
  repeat match goal with Hf : Forall2 _ (_ :: _) _ |- _ => inversion Hf; clear Hf; subst | Hf : Forall2 _ [] _ |- _ => inversion Hf; clear Hf; subst end; cbv beta in *.

Ltac txt := repeat (rewrite <- app_assoc || cbn [join app T list_ascii_of_string]); reflexivity.
(** the argument [v] is shown as a file name, an integer, an unsigned integer *)
Ltac shown_by v E Hx := let E2 := fresh in pose proof (eq_trans (eq_sym E) Hx) as E2; clear Hx; injection E2 as <-.
Ltac shown_file v t Hn := match goal with Hx : getText ?p ?ns ?repr _ (st_view ?b) (Func ?call ?rt ?args) (Arg v (Some ?ty) (Some ?name) _) = Ok _ |- _ =>
  shown_by v (file_text p ns repr b call rt args v ty name t ltac:(vm_compute; reflexivity) ltac:(vm_compute; reflexivity) ltac:(first [left; reflexivity | right; reflexivity]) Hn) Hx end.
Ltac shown_int v m := match goal with Hx : getText ?p ?ns ?repr _ ?w (Func ?call ?rt ?args) (Arg v (Some ?ty) (Some ?name) _) = Ok _ |- _ =>
  let E := fresh in destruct (int_text p ns repr w call rt args v name ltac:(vm_compute; reflexivity)) as (m & E); shown_by v E Hx; clear E end.
Ltac shown_uint v := match goal with Hx : getText ?p ?ns ?repr _ ?w (Func ?call ?rt ?args) (Arg v (Some ?ty) (Some ?name) _) = Ok _ |- _ =>
  shown_by v (uint_text p ns repr w call rt args v ty name ltac:(vm_compute; reflexivity) ltac:(first [left; reflexivity | right; reflexivity])) Hx end.
Section Tests.
  Context (p : platform) (ns : namespace) (repr_fs : list byte -> text) (errorcode : list (Z * text)) (strerror : Z -> text).
  Notation strace_run := (strace_run p ns repr_fs errorcode strerror).
  Context (pid : Z) (x : text) (l : list text) (acts : list act) (e : ending) (output : text) (status : Z) (Hrun : strace_run pid x l acts e output status).

  Lemma traceback : no_traceback output = true.
  Proof.
    destruct (run_output _ _ _ _ _ _ _ _ _ _ _ _ Hrun) as (ls & le & _ & _ & -> & _). unfold execve_line. cbn [text_of_lines]. rewrite <- !app_assoc. reflexivity.
  Qed.
  Lemma asserted r t : has_line output t -> (forall b rest, exists c w rest', t = w ++ rest' /\ den r b w (rest' ++ rest) [] c) -> assert_syscall r output = true.
  Proof. intros H1 H2. unfold assert_syscall. rewrite traceback. exact (found_line r output t H1 H2). Qed.
  Lemma asserted_text t : has_line output t -> assert_syscall (rtext t) output = true.
  Proof. intros H. unfold assert_syscall. rewrite traceback. exact (found_text output t H). Qed.

  (** The text of a call at the beginning of a line *)
  Lemma made b name restype formats values : makes p acts name values b ->
    name <> T "socketcall" -> name <> T "execve" -> preformat name = [] -> has_prototype name restype formats -> List.length values = List.length formats ->
    exists r texts kept, Forall2 (fun a x => getText p ns repr_fs (Options false false true 300 false 20 false) (st_view b) (Func name (Some restype) (zip_args values formats)) a = Ok x) (zip_args values formats) texts /\
      without_trailing_empty texts kept /\ st_result b = Ok r /\
      forall t u, in_columns 40 (name ++ T "(" ++ join (T ", ") kept ++ T ")") ++ T " = " ++ snd (result_text p errorcode strerror restype r) = t ++ u -> has_line output t.
  Proof.
    intros Hm H1 H2 H3 H4 H5. destruct (made_line p ns repr_fs errorcode strerror _ _ _ _ _ _ _ b name restype formats values Hrun Hm H1 H2 H3 H4 H5) as (r & texts & kept & lines & HF & Hk & Hr & Eo & Hin).
    exists r, texts, kept. split; [exact HF|]. split; [exact Hk|]. split; [exact Hr|]. intros t u E. rewrite Eo. apply (has_prefix _ _ u). cbv zeta in Hin. rewrite E in Hin. exact Hin.
  Qed.
  Lemma columns_app t u : in_columns 40 t ++ u = t ++ repeat " "%char (40 - List.length t) ++ u.
  Proof. unfold in_columns. now rewrite <- app_assoc. Qed.

  Lemma chdir_ok a b : makes p acts (T "chdir") [a] b -> name_at repr_fs b a (T "directory") -> returns p b (-2) -> dget Z.eqb 2 errorcode = Some (T "ENOENT") ->
    assert_syscall re_chdir output = true.
  Proof.
    intros Hm Hn (r & Hr & _ & Hs) He.
    destruct (made b (T "chdir") (T "long") [(T "const char *", T "filename")] [a] Hm ltac:(discriminate) ltac:(discriminate) eq_refl ltac:(proto) eq_refl)
      as (r' & texts & kept & HF & Hk & Hr' & Hl). rewrite Hr in Hr'. injection Hr' as <-.
    shown_args HF. rewrite (file_text p ns repr_fs b _ _ _ a _ _ (T "directory")) in H1; try reflexivity; [|now left|exact Hn]. injection H1 as <-.
    apply (kept_front []) in Hk as (rest & -> & Hk); [|discriminate]. rewrite (Hk eq_refl) in Hl. clear Hk.
    destruct (result_spec p errorcode strerror (T "long") r (-2) eq_refl Hs) as (_ & Ht & _). rewrite (Ht (T "ENOENT") ltac:(lia) He) in Hl. clear Ht.
    specialize (Hl (T "chdir('directory')" ++ T "                       " ++ T "= -2 ENOENT") (T " (" ++ strerror (- -2) ++ T ")") eq_refl).
    apply (asserted _ _ Hl). intros b0 rest0. exists [], (T "chdir('directory')" ++ T "                       " ++ T "= -2 ENOENT"), []. split; [now rewrite app_nil_r|].
    unfold re_chdir. eapply den_step; [discriminate|apply den_same|]. eapply den_step; [discriminate| |cbn [rcat]; apply den_same].
    apply den_plus_set. split; [discriminate|]. split; [repeat constructor|reflexivity].
  Qed.

  (** Two names and nothing else *)
  Lemma two_names call n1 n2 a1 a2 t1 t2 b : call <> T "socketcall" -> call <> T "execve" -> preformat call = [] ->
    has_prototype call (T "long") [(T "const char *", n1); (T "const char *", n2)] ->
    pair_free call n1 && pair_free call n2 && existsb (text_eqb n1) FILENAME_ARGUMENTS && existsb (text_eqb n2) FILENAME_ARGUMENTS = true ->
    makes p acts call [a1; a2] b -> name_at repr_fs b a1 t1 -> name_at repr_fs b a2 t2 -> has_line output (call ++ T "('" ++ t1 ++ T "', '" ++ t2 ++ T "')").
  Proof.
    intros Hs He Hp Hproto Hb Hm Hn1 Hn2. apply andb_prop in Hb as [Hb B4]. apply andb_prop in Hb as [Hb B3]. apply andb_prop in Hb as [B1 B2].
    destruct (made b call (T "long") _ [a1; a2] Hm Hs He Hp Hproto eq_refl) as (r & texts & kept & HF & Hk & _ & Hl). clear Hproto.
    shown_args HF. rewrite (file_text p ns repr_fs b _ _ _ a1 _ n1 t1 B1 B3 (or_introl eq_refl) Hn1) in H1. injection H1 as <-.
    rewrite (file_text p ns repr_fs b _ _ _ a2 _ n2 t2 B2 B4 (or_introl eq_refl) Hn2) in H2. injection H2 as <-.
    apply (kept_front [T "'" ++ t1 ++ T "'"]) in Hk as (rest & -> & Hk); [|discriminate]. rewrite (Hk eq_refl) in Hl. clear Hk.
    eapply Hl. rewrite columns_app. f_equal. txt.
  Qed.
  Lemma rename_ok d1 o d2 n b : makes p acts (fst (rename_call (p_cpu p) d1 o d2 n)) (snd (rename_call (p_cpu p) d1 o d2 n)) b ->
    name_at repr_fs b o (T "oldpath") -> name_at repr_fs b n (T "newpath") -> assert_syscall (re_rename p) output = true.
  Proof.
    intros Hm Ho Hn.
    assert (test_riscv p = false -> test_aarch64 p = false -> makes p acts (T "rename") [o; n] b -> assert_syscall (re_rename p) output = true) as Hold.
    { intros E1 E2 H. unfold re_rename. rewrite E1, E2.
      apply asserted_text. exact (two_names (T "rename") _ _ o n (T "oldpath") (T "newpath") b ltac:(discriminate) ltac:(discriminate) eq_refl ltac:(proto) ltac:(vm_compute; reflexivity) H Ho Hn). }
    assert (test_riscv p = true -> makes p acts (T "renameat2") [d1; o; d2; n; 0] b -> assert_syscall (re_rename p) output = true) as Hriscv.
    { intros E1 H. unfold re_rename. rewrite E1.
      destruct (made b (T "renameat2") (T "long") _ [d1; o; d2; n; 0] H ltac:(discriminate) ltac:(discriminate) eq_refl ltac:(proto) eq_refl) as (r & texts & kept & HF & Hk & _ & Hl).
      shown_args HF. shown_int d1 m1. shown_int d2 m2. shown_file o (T "oldpath") Ho. shown_file n (T "newpath") Hn. shown_uint 0.
      apply (kept_front [_; _; _; _]) in Hk as (rest & -> & Hk); [|discriminate]. rewrite (Hk eq_refl) in Hl. clear Hk.
      assert (has_line output (T "renameat2(" ++ (str_int m1 ++ T ", ") ++ T "'oldpath'" ++ (T ", " ++ str_int m2 ++ T ", ") ++ T "'newpath', 0)")) as Hline.
      { eapply Hl. rewrite columns_app. f_equal. txt. }
      apply (asserted _ _ Hline). intros b0 rest0. eexists [], _, []. split; [symmetry; apply app_nil_r|].
      eapply den_step; [discriminate|apply den_same|]. eapply den_step; [discriminate|apply den_dots|]. { apply one_line_app; [apply str_int_line|now apply one_line_const]. }
      eapply den_step; [discriminate|apply den_same|]. eapply den_step; [discriminate|apply den_dots|apply den_same].
      apply one_line_app; [now apply one_line_const|]. apply one_line_app; [apply str_int_line|now apply one_line_const]. }
    assert (test_riscv p = false -> test_aarch64 p = true -> makes p acts (T "renameat") [d1; o; d2; n] b -> assert_syscall (re_rename p) output = true) as Harm.
    { intros E1 E2 H. unfold re_rename. rewrite E1, E2.
      destruct (made b (T "renameat") (T "long") _ [d1; o; d2; n] H ltac:(discriminate) ltac:(discriminate) eq_refl ltac:(proto) eq_refl) as (r & texts & kept & HF & Hk & _ & Hl).
      shown_args HF. shown_int d1 m1. shown_int d2 m2. shown_file o (T "oldpath") Ho. shown_file n (T "newpath") Hn.
      apply (kept_front [_; _; _]) in Hk as (rest & -> & Hk); [|discriminate]. rewrite (Hk eq_refl) in Hl. clear Hk.
      assert (has_line output (T "renameat(" ++ (str_int m1 ++ T ", ") ++ T "'oldpath'" ++ (T ", " ++ str_int m2 ++ T ", ") ++ T "'newpath')")) as Hline.
      { eapply Hl. rewrite columns_app. f_equal. txt. }
      apply (asserted _ _ Hline). intros b0 rest0. eexists [], _, []. split; [symmetry; apply app_nil_r|].
      eapply den_step; [discriminate|apply den_same|]. eapply den_step; [discriminate|apply den_dots|]. { apply one_line_app; [apply str_int_line|now apply one_line_const]. }
      eapply den_step; [discriminate|apply den_same|]. eapply den_step; [discriminate|apply den_dots|apply den_same].
      apply one_line_app; [now apply one_line_const|]. apply one_line_app; [apply str_int_line|now apply one_line_const]. }
    unfold test_riscv, test_aarch64 in *. destruct (p_cpu p); cbn [rename_call fst snd is_riscv] in *; auto.
  Qed.
  Lemma link_ok d1 o d2 n flags b : makes p acts (fst (link_call (p_cpu p) d1 o d2 n flags)) (snd (link_call (p_cpu p) d1 o d2 n flags)) b ->
    name_at repr_fs b o (T "oldpath") -> name_at repr_fs b n (T "newpath") -> assert_syscall (re_link p) output = true.
  Proof.
    intros Hm Ho Hn.
    assert (test_aarch64 p || test_riscv p = false -> makes p acts (T "link") [o; n] b -> assert_syscall (re_link p) output = true) as Hold.
    { intros E H. unfold re_link. rewrite E.
      apply asserted_text. exact (two_names (T "link") _ _ o n (T "oldpath") (T "newpath") b ltac:(discriminate) ltac:(discriminate) eq_refl ltac:(proto) ltac:(vm_compute; reflexivity) H Ho Hn). }
    assert (test_aarch64 p || test_riscv p = true -> makes p acts (T "linkat") [d1; o; d2; n; flags] b -> assert_syscall (re_link p) output = true) as Hnew.
    { intros E1 H. unfold re_link. rewrite E1.
      destruct (made b (T "linkat") (T "long") _ [d1; o; d2; n; flags] H ltac:(discriminate) ltac:(discriminate) eq_refl ltac:(proto) eq_refl) as (r & texts & kept & HF & Hk & _ & Hl).
      shown_args HF. shown_int d1 m1. shown_int d2 m2. shown_file o (T "oldpath") Ho. shown_file n (T "newpath") Hn. shown_int flags m3.
      apply (kept_front [_; _; _; _]) in Hk as (rest & -> & Hk); [|apply str_int_some]. rewrite (Hk eq_refl) in Hl. clear Hk.
      assert (has_line output (T "linkat(" ++ (str_int m1 ++ T ", ") ++ T "'oldpath'" ++ (T ", " ++ str_int m2 ++ T ", ") ++ T "'newpath'" ++ (T ", " ++ str_int m3) ++ T ")")) as Hline.
      { eapply Hl. rewrite columns_app. f_equal. txt. }
      apply (asserted _ _ Hline). intros b0 rest0. eexists [], _, []. split; [symmetry; apply app_nil_r|].
      eapply den_step; [discriminate|apply den_same|]. eapply den_step; [discriminate|apply den_dots|]. { apply one_line_app; [apply str_int_line|now apply one_line_const]. }
      eapply den_step; [discriminate|apply den_same|]. eapply den_step; [discriminate|apply den_dots|]. { apply one_line_app; [now apply one_line_const|]. apply one_line_app; [apply str_int_line|now apply one_line_const]. }
      eapply den_step; [discriminate|apply den_same|]. eapply den_step; [discriminate|apply den_dots|apply den_one]. apply one_line_app; [now apply one_line_const|apply str_int_line]. }
    unfold test_riscv, test_aarch64 in *. destruct (p_cpu p); cbn [link_call fst snd is_riscv orb] in *; auto.
  Qed.
  Lemma symlink_ok o d n b : makes p acts (fst (symlink_call (p_cpu p) o d n)) (snd (symlink_call (p_cpu p) o d n)) b ->
    name_at repr_fs b o (T "target") -> name_at repr_fs b n (T "linkpath") -> assert_syscall (re_symlink p) output = true.
  Proof.
    intros Hm Ho Hn.
    assert (test_aarch64 p || test_riscv p = false -> makes p acts (T "symlink") [o; n] b -> assert_syscall (re_symlink p) output = true) as Hold.
    { intros E H. unfold re_symlink. rewrite E.
      apply asserted_text. exact (two_names (T "symlink") _ _ o n (T "target") (T "linkpath") b ltac:(discriminate) ltac:(discriminate) eq_refl ltac:(proto) ltac:(vm_compute; reflexivity) H Ho Hn). }
    assert (test_aarch64 p || test_riscv p = true -> makes p acts (T "symlinkat") [o; d; n] b -> assert_syscall (re_symlink p) output = true) as Hnew.
    { intros E1 H. unfold re_symlink. rewrite E1.
      destruct (made b (T "symlinkat") (T "long") _ [o; d; n] H ltac:(discriminate) ltac:(discriminate) eq_refl ltac:(proto) eq_refl) as (r & texts & kept & HF & Hk & _ & Hl).
      shown_args HF. shown_int d m1. shown_file o (T "target") Ho. shown_file n (T "linkpath") Hn.
      apply (kept_front [_; _]) in Hk as (rest & -> & Hk); [|discriminate]. rewrite (Hk eq_refl) in Hl. clear Hk.
      assert (has_line output (T "symlinkat(" ++ [] ++ T "'target'" ++ (T ", " ++ str_int m1 ++ T ", ") ++ T "'linkpath')")) as Hline.
      { eapply Hl. rewrite columns_app. f_equal. txt. }
      apply (asserted _ _ Hline). intros b0 rest0. eexists [], _, []. split; [symmetry; apply app_nil_r|].
      eapply den_step; [discriminate|apply den_same|]. eapply den_step; [discriminate|apply den_dots|]. { now apply one_line_const. }
      eapply den_step; [discriminate|apply den_same|]. eapply den_step; [discriminate|apply den_dots|apply den_same].
      apply one_line_app; [now apply one_line_const|]. apply one_line_app; [apply str_int_line|now apply one_line_const]. }
    unfold test_riscv, test_aarch64 in *. destruct (p_cpu p); cbn [symlink_call fst snd is_riscv orb] in *; auto.
  Qed.
End Tests.
