(** * SuiteProofs5: the tests of open(), of socket() and of the exit status (C137). *)
From Coq Require Import ZArith List Ascii String Bool Lia.
From Verif Require Import PyBase PyFacts Platform IntModel IntSpec IntProofs RegModel SigModel TabModel TabSpec TabProofs ToolsModel ToolsProofs RegexModel RegexSpec RegexProofs ArgModel ArgSpec ArgProofs ArgProofs2
  DbgModel DbgSpec SysModel SysSpec SysProofs SysProofs2 LogModel StraceModel StraceSpec StorySpec StoryProofs StoryProofs2 StoryProofs3 OutModel OutSpec ShownSpec ShownProofs SuiteModel SuiteSpec SuiteProofs SuiteProofs2 SuiteProofs3 SuiteProofs4.
Import ListNotations.
Open Scope Z_scope.
#[local] Opaque SYSCALL_PROTOTYPES SYSCALL_ARG_DICT.

Ltac listed := unfold decoders; repeat (first [left; reflexivity | right]).
Ltac shown_decoded v d := match goal with Hx : getText ?p ?ns ?repr _ ?w (Func ?call ?rt ?args) (Arg v (Some ?ty) (Some ?name) _) = Ok _ |- _ =>
  shown_by v (decoded_text p ns repr w call rt args v ty name d ltac:(destruct (p_os p); vm_compute; reflexivity) ltac:(discriminate) ltac:(listed)) Hx end.
Lemma read_only flags : Z.testbit flags 0 = false -> Z.testbit flags 1 = false -> exists u, formatOpenFlags flags = T "O_RDONLY" ++ u.
Proof.
  intros H0 H1. rewrite formatOpenFlags_spec. unfold access_prefix. rewrite H0, H1. cbn [orb app].
  destruct (ToolsModel.readBits flags OPEN_FLAGS_BITMASK) as [|f l]; cbn [join]; [|rewrite <- app_assoc]; eexists; reflexivity.
Qed.
Lemma join_front (l : list text) x : forall rest, exists u, join (T ", ") (l ++ x :: rest) = join (T ", ") (l ++ [x]) ++ u.
Proof.
  intros rest. induction l as [|y l IH].
  - cbn [app]. destruct rest; [exists []; symmetry; apply app_nil_r|]. cbn [join]. eexists. reflexivity.
  - destruct IH as (u & IH). exists u. cbn [app]. destruct (l ++ x :: rest) eqn:E1; [destruct l; discriminate E1|]. destruct (l ++ [x]) eqn:E2; [destruct l; discriminate E2|].
    change (y ++ T ", " ++ join (T ", ") (l0 :: l1) = (y ++ T ", " ++ join (T ", ") (l2 :: l3)) ++ u). rewrite IH, <- !app_assoc. reflexivity.
Qed.
Lemma dirfd_line d : one_line (formatDirFd d) /\ formatDirFd d <> [].
Proof. unfold formatDirFd. cbv zeta. destruct (_ =? _); [split; [now apply one_line_const|discriminate]|split; [apply str_int_line|apply str_int_some]]. Qed.

Section Tests.
  Context (p : platform) (ns : namespace) (repr_fs : list byte -> text) (errorcode : list (Z * text)) (strerror : Z -> text).
  Notation strace_run := (strace_run p ns repr_fs errorcode strerror).
  Context (pid : Z) (x : text) (l : list text) (acts : list act) (e : ending) (output : text) (status : Z) (Hrun : strace_run pid x l acts e output status).

  Lemma exitcode_ok ec : meaning e = Exited ec -> test_exitcode ec output status = true.
  Proof.
    intros He. unfold test_exitcode. rewrite (traceback _ _ _ _ _ _ _ _ _ _ _ _ Hrun). apply run_output in Hrun as (ls & le & _ & _ & _ & _ & ->). rewrite He. apply Z.eqb_refl.
  Qed.
  Lemma last_signal a s c : signal_code (a ++ [ASignal s]) c = 128 + s.
  Proof. revert c. induction a as [|[? ?|? ? ?|? ?|?] a IH]; intros c; cbn [app signal_code]; auto. Qed.
  Lemma exitsignal_ok a s core : acts = a ++ [ASignal s] -> meaning e = Killed s core -> 0 <= s < 128 -> test_exitsignal s output status = true.
  Proof.
    intros Ea He Hs. unfold test_exitsignal. rewrite (traceback _ _ _ _ _ _ _ _ _ _ _ _ Hrun). apply run_output in Hrun as (ls & le & _ & _ & _ & _ & ->). rewrite He, Ea, last_signal.
    rewrite Z.mod_small by lia. apply Z.eqb_refl.
  Qed.

  (** ** socket() *)
  Lemma socket_ok ty proto b : makes p acts (T "socket") [2; ty; proto] b -> ty = 1 \/ ty = 1 + 0x80000 -> assert_syscall re_socket output = true.
  Proof.
    intros Hm Hty.
    assert (running_linux p = true) as Hlin by (clear - Hrun; destruct Hrun as (? & ? & ? & ? & ? & ? & ? & ? & ? & ? & ? & ? & ? & ? & ? & ? & ? & ? & ? & ? & H & _); exact H).
    destruct (made p ns repr_fs errorcode strerror _ _ _ _ _ _ _ Hrun b (T "socket") (T "long") _ [2; ty; proto] Hm ltac:(discriminate) ltac:(discriminate) eq_refl ltac:(proto) eq_refl)
      as (r & texts & kept & HF & Hk & _ & Hl).
    shown_args HF. shown_decoded ty (formatSocketType (SOCK_CLOEXEC p)).
    assert (SOCK_CLOEXEC p = 0x80000) as Esc by (unfold running_linux in Hlin; unfold SOCK_CLOEXEC; destruct (p_os p); try discriminate Hlin; reflexivity).
    match goal with Hx : getText p ns repr_fs ?o ?w ?f ?a = Ok _ |- _ =>
      match a with Arg 2 _ _ _ => pose proof (named_shown p ns repr_fs o w f a (T "domain") (T "AF_INET") (or_introl eq_refl) eq_refl eq_refl) as E end end.
    match type of E with _ -> ?g => assert g as E2 end.
    { apply E. cbn [f_name a_value]. apply named_looked. unfold looked_up. rewrite dict_os. unfold running_linux in Hlin. destruct (p_os p); try discriminate Hlin; vm_compute; reflexivity. }
    clear E. match goal with Hx : getText _ _ _ _ _ _ (Arg 2 _ _ _) = Ok ?y |- _ => pose proof (eq_trans (eq_sym E2) Hx) as E3; clear E2 Hx; injection E3 as <- end.
    rewrite Esc in Hk.
    assert (exists u, formatSocketType 0x80000 ty = T "SOCK_STREAM" ++ u) as (u & Eu) by (destruct Hty as [-> | ->]; [exists []|exists (T "|SOCK_CLOEXEC")]; vm_compute; reflexivity).
    rewrite Eu in Hk.
    apply (kept_front [T "AF_INET"]) in Hk as (rest & -> & _); [|discriminate].
    assert (has_line output (T "socket(AF_INET, SOCK_STREAM")) as Hline.
    { destruct (join_front [T "AF_INET"] (T "SOCK_STREAM" ++ u) rest) as (v & Ev). rewrite Ev in Hl. eapply Hl. rewrite columns_app.
      instantiate (1 := (u ++ v ++ T ")") ++ _). rewrite <- !app_assoc. reflexivity. }
    apply (asserted p ns repr_fs errorcode strerror _ _ _ _ _ _ _ Hrun _ _ Hline). intros b0 rest0. eexists [], _, []. split; [symmetry; apply app_nil_r|].
    rewrite <- (app_nil_r (T "socket(AF_INET, SOCK_STREAM")). eapply den_step; [discriminate|apply den_same|]. cbn [rcat]. apply den_opt. right. split; reflexivity.
  Qed.

  (** ** open() *)
  Lemma open_ok b d f flags mode dir suffix :
    makes p acts (T "open") [f; flags; mode] b \/ makes p acts (T "openat") [d; f; flags; mode] b -> suffix = [] \/ suffix = T "c" -> one_line dir ->
    name_at repr_fs b f (dir ++ T "test_strace.py" ++ suffix) -> Z.testbit flags 0 = false -> Z.testbit flags 1 = false -> assert_syscall re_open output = true.
  Proof.
    intros Hm Hsuf Hdir Hn H0 H1. destruct (read_only flags H0 H1) as (fl & Efl).
    assert (exists at_ front, (at_ = [] \/ at_ = T "at") /\ one_line front /\ has_line output (T "open" ++ at_ ++ T "(" ++ front ++ T "test_strace.py" ++ suffix ++ T "', O_RDONLY")) as (at_ & front & Hat & Hfront & Hline).
    { destruct Hm as [Hm|Hm].
      - exists [], (T "'" ++ dir). split; [now left|]. split; [apply one_line_app; [now apply one_line_const|exact Hdir]|].
        destruct (made p ns repr_fs errorcode strerror _ _ _ _ _ _ _ Hrun b (T "open") (T "long") _ [f; flags; mode] Hm ltac:(discriminate) ltac:(discriminate) eq_refl ltac:(proto) eq_refl)
          as (r & texts & kept & HF & Hk & _ & Hl).
        shown_args HF. shown_file f (dir ++ T "test_strace.py" ++ suffix) Hn. shown_decoded flags formatOpenFlags. rewrite Efl in Hk.
        match type of Hk with without_trailing_empty (?y :: _) _ => apply (kept_front [y]) in Hk as (rest & -> & _); [|discriminate]; destruct (join_front [y] (T "O_RDONLY" ++ fl) rest) as (v & Ev) end.
        rewrite Ev, columns_app in Hl. clear Ev. revert Hl. match goal with |- context [repeat " "%char ?n] => generalize (repeat " "%char n) end. intros pad Hl. eapply Hl. txt.
      - exists (T "at"), (formatDirFd d ++ T ", '" ++ dir). split; [now right|]. split; [apply one_line_app; [apply dirfd_line|apply one_line_app; [now apply one_line_const|exact Hdir]]|].
        destruct (made p ns repr_fs errorcode strerror _ _ _ _ _ _ _ Hrun b (T "openat") (T "long") _ [d; f; flags; mode] Hm ltac:(discriminate) ltac:(discriminate) eq_refl ltac:(proto) eq_refl)
          as (r & texts & kept & HF & Hk & _ & Hl).
        shown_args HF. shown_decoded d formatDirFd. shown_file f (dir ++ T "test_strace.py" ++ suffix) Hn. shown_decoded flags formatOpenFlags. rewrite Efl in Hk.
        match type of Hk with without_trailing_empty (?y1 :: ?y2 :: _) _ => apply (kept_front [y1; y2]) in Hk as (rest & -> & _); [|discriminate]; destruct (join_front [y1; y2] (T "O_RDONLY" ++ fl) rest) as (v & Ev) end.
        rewrite Ev, columns_app in Hl. clear Ev. revert Hl. match goal with |- context [repeat " "%char ?n] => generalize (repeat " "%char n) end. intros pad Hl. eapply Hl. txt. }
    apply (asserted p ns repr_fs errorcode strerror _ _ _ _ _ _ _ Hrun _ _ Hline). intros b0 rest0. destruct Hat as [-> | ->]; (eexists _, _, []; split; [symmetry; apply app_nil_r|]).
    all: eapply den_step; [discriminate|apply den_same|]; (eapply den_step; [discriminate|apply den_opt|]); [first [right; split; reflexivity | left; eexists; split; [apply den_same|reflexivity]]|].
    all: eapply den_step; [discriminate|apply den_one|]; eapply den_step; [discriminate|apply (den_dots _ _ _ _ Hfront)|]; eapply den_step; [discriminate|apply den_same|].
    all: eapply den_step; [discriminate|apply den_opt; destruct Hsuf as [-> | ->]; [right; split; reflexivity|left; apply den_one]|].
    all: rewrite <- (app_nil_r (T "', O_RDONLY")); eapply den_step; [discriminate|apply den_same|]; cbn [rcat]; apply den_opt; right; split; reflexivity.
  Qed.
End Tests.
