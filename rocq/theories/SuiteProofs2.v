(** * SuiteProofs2: the line of a call (C137). *)
From Coq Require Import ZArith List Ascii String Bool Lia.
From Verif Require Import PyBase PyFacts Platform IntModel IntSpec IntProofs RegModel SigModel TabModel TabSpec TabProofs ToolsModel RegexModel RegexSpec RegexProofs ArgModel ArgSpec ArgProofs ArgProofs2
  DbgModel DbgSpec SysModel SysSpec SysProofs SysProofs2 LogModel StraceModel StraceSpec StorySpec StoryProofs StoryProofs2 StoryProofs3 OutModel OutSpec ShownSpec ShownProofs SuiteModel SuiteSpec SuiteProofs.
Import ListNotations.
Open Scope Z_scope.

Lemma kept_front (l1 l2 kept : list text) x : without_trailing_empty (l1 ++ x :: l2) kept -> x <> [] -> exists rest, kept = l1 ++ x :: rest /\ (l2 = [] -> rest = []).
Proof.
  intros [(n & E) _] Hx. revert l1 E. induction kept as [|y kept IH]; intros l1 E; cbn [app] in E.
  - exfalso. destruct n as [|n]; [destruct l1; discriminate E|]. apply Hx. assert (In x (repeat ([] : text) (S n))) as Hin by (rewrite <- E; apply in_elt).
    now apply repeat_spec in Hin.
  - destruct l1 as [|z l1]; cbn [app] in E; injection E as <- E.
    + exists kept. split; [reflexivity|]. intros ->. destruct kept; [reflexivity|discriminate E].
    + destruct (IH l1 E) as (rest & -> & H). exists rest. split; [reflexivity|exact H].
Qed.

#[local] Opaque SYSCALL_PROTOTYPES.
Section Line.
  Context (p : platform) (ns : namespace) (repr_fs : list byte -> text) (errorcode : list (Z * text)) (strerror : Z -> text).
  Notation strace_run := (strace_run p ns repr_fs errorcode strerror).
  Notation opts := (Options false false true 300 false 20 false).
  Notation getText := (getText p ns repr_fs opts).

  Lemma entered_call a name values : running_linux p = true -> entered p a name values ->
    forall c, enters p a c -> c_func c = Func name (Some (T "long")) [] /\ c_result c = None.
  Proof.
    intros Hl (regs & r & number & Hr & Ha & Hn & Hname & _) c (regs' & Hr' & Hc). rewrite Hr in Hr'. injection Hr' as <-.
    apply new_spec in Hc as (H1 & H2 & H3 & H4 & _ & H5 & _). rewrite (number_register p Hl r Ha), Hn in H1. injection H1 as H1. rewrite H1 in Hname.
    apply H4 in Hname. split; [|exact H5]. destruct c as [[n rt ar] ? ? ? ?]. cbn [c_func f_name f_args f_restype] in *. now subst.
  Qed.
  Definition enter_rest (opts : options) (v : view) (regs : registers) (c : syscall_call) (f : func) : res syscall_call :=
    do f <- (if text_eqb (f_name f) (T "socketcall") && o_replace_socketcall opts then
               do a0 <- nth_arg 0 (f_args f);
               do a1 <- nth_arg 1 (f_args f);
               do name <- ArgModel.getText p ns repr_fs opts v f a0;
               setupSocketCall p v name (a_value a1)
             else Ok f);
    do f <- format_now p ns repr_fs opts v (preformat (f_name f)) f;
    do ip <- (if o_instr_pointer opts then
                match CPU_INSTR_POINTER p with
                | Some name => do ip <- regs name; Ok (Some ip)
                | None => Err ETypeError
                end
              else Ok (c_instr_pointer c));
    Ok (SyscallCall f (c_number c) (c_result c) (c_result_text c) ip).
  Lemma enter_parts opts v sp regs c : enter p ns repr_fs opts v sp regs c = (do values <- readArgumentValues p v sp regs; enter_rest opts v regs c (readArguments (c_func c) values)).
  Proof. reflexivity. Qed.
  Lemma rest_exact opts v regs c c' f : enter_rest opts v regs c f = Ok c' -> replaced opts f = false -> preformat (f_name f) = [] -> c_func c' = f /\ c_result c' = c_result c.
  Proof.
    unfold enter_rest, replaced. intros H Hr Hp. rewrite Hr in H. cbn [bind] in H. rewrite Hp in H. cbn [format_now bind] in H.
    destruct (if o_instr_pointer opts then _ else _) as [ip|e]; cbn [bind] in H; [|discriminate]. injection H as <-. split; reflexivity.
  Qed.
  Lemma read_name f values : f_name (readArguments f values) = f_name f.
  Proof. unfold readArguments. destruct (dget _ _ _) as [[? ?]|]; reflexivity. Qed.
  Lemma enter_exact opts v sp regs c c' : enter p ns repr_fs opts v sp regs c = Ok c' -> replaced opts (c_func c) = false -> preformat (f_name (c_func c)) = [] ->
    exists values, readArgumentValues p v sp regs = Ok values /\ c_func c' = readArguments (c_func c) values /\ c_result c' = c_result c.
  Proof.
    rewrite enter_parts. destruct (readArgumentValues p v sp regs) as [values|e]; cbn [bind]; [|discriminate]. intros H Hr Hp. exists values. split; [reflexivity|].
    apply (rest_exact _ _ _ _ _ _ H); [unfold replaced in *|]; rewrite read_name; assumption.
  Qed.
  Lemma zip_more (a b : list Z) (l : list (text * text)) : List.length a = List.length l -> zip_args (a ++ b) l = zip_args a l.
  Proof. revert l. induction a as [|x a IH]; intros [|[ty nm] l] H; try discriminate H; cbn [app zip_args]; [now destruct b|]. f_equal. apply IH. now injection H. Qed.
  Lemma forget_fresh l : forall n m (formats : list (text * text)), forget [] n (zip_args l formats) = zip_args l formats /\ forget [] m (zip_args l formats) = zip_args l formats.
  Proof.
    assert (forall n formats, forget [] n (zip_args l formats) = zip_args l formats) as H; [|auto]. induction l as [|x l IH]; intros n [|[ty nm] formats]; cbn [zip_args forget existsb]; try reflexivity.
    rewrite IH. destruct (truthy _ && _); reflexivity.
  Qed.
  Lemma regs_values (regs : registers) v sp values (l : list Z) : running_linux p = true -> p_cpu p <> OtherCPU -> readArgumentValues p v sp regs = Ok values ->
    Forall2 (fun r x => regs r = Ok x) (firstn (List.length l) (abi_arguments (p_cpu p))) l -> exists rest, values = l ++ rest.
  Proof.
    intros Hl Hc H HF. apply (args_registers p regs v sp values Hc (or_introl Hl)) in H as (first & rest & -> & H).
    enough (exists r, first = l ++ r) as (r & ->) by (exists (r ++ rest); now rewrite app_assoc).
    clear - H HF. revert first l H HF. induction (abi_arguments (p_cpu p)) as [|n names IH]; intros first l H HF; [inversion H; subst; rewrite firstn_nil in HF; inversion HF; subst; now exists []|].
    destruct l as [|x l]; [now exists first|]. cbn [List.length firstn] in HF. inversion HF as [|? ? ? ? H1 H2]; subst. inversion H as [|? y ? first' H3 H4]; subst.
    rewrite H1 in H3. injection H3 as <-. destruct (IH first' l H4 H2) as (r & ->). now exists r.
  Qed.

  (** The line of a call that was entered at [a] and left at [b] *)
  Lemma call_text program pid id a b z l1 l2 name restype formats values : running_linux p = true -> p_cpu p <> OtherCPU ->
    call_lines p ns repr_fs errorcode strerror (test_options program) [] pid id a b z l1 l2 -> entered p a name values ->
    name <> T "socketcall" -> preformat name = [] -> has_prototype name restype formats -> List.length values = List.length formats ->
    let f := Func name (Some restype) (zip_args values formats) in
    exists c r texts kept, Forall2 (fun a x => getText (st_view z) f a = Ok x) (f_args f) texts /\ without_trailing_empty texts kept /\
      st_result b = Ok r /\ l1 = [] /\
      l2 = [LSyscall id c (in_columns 40 (name ++ T "(" ++ join (T ", ") kept ++ T ")") ++ T " = " ++ snd (result_text p errorcode strerror restype r))].
  Proof.
    intros Hl Hcpu H He Hs Hpre Hproto Hlen. cbv zeta. destruct H as [c Hc Hsel|c c0 c1 c2 c3 t l x Hc _ (regs & Hregs & Hen) Ha Hx (t' & Hf & _ & ->)].
    { exfalso. apply Hsel. split; [left; reflexivity|]. intros m Hm. discriminate Hm. }
    destruct (entered_call a name values Hl He c Hc) as [Ec Er]. unfold announced in Ha. cbn [test_options s_enter] in Ha. destruct Ha as [-> ->].
    change (syscall_options (test_options program)) with opts in *.
    assert (replaced opts (c_func c) = false) as Hrep by (rewrite Ec; unfold replaced; cbn [f_name]; replace (text_eqb name (T "socketcall")) with false; [reflexivity|symmetry; apply text_eqb_neq; exact Hs]).
    assert (preformat (f_name (c_func c)) = []) as Hpre' by (rewrite Ec; exact Hpre).
    destruct (enter_exact _ _ _ _ _ _ Hen Hrep Hpre') as (vs & Hv & E0 & E1). destruct He as (regs' & rn & number & Hr' & _ & _ & _ & HF).
    rewrite Hregs in Hr'. injection Hr' as <-. destruct (regs_values regs _ _ vs values Hl Hcpu Hv HF) as (rest & ->).
    rewrite Ec in E0. unfold readArguments in E0. cbn [f_name f_args app] in E0. rewrite (dget_has_prototype _ _ _ Hproto), (zip_more _ _ _ Hlen) in E0.
    unfold exit_ in Hx. rewrite E0 in Hx. cbn [f_name f_args set_args f_restype get] in Hx. rewrite Hpre, (proj1 (forget_fresh values 0%nat 0%nat formats)) in Hx.
    destruct (st_result b) as [r|] eqn:Eb; cbn [bind] in Hx; [|discriminate Hx]. destruct (result_text p errorcode strerror restype r) as [value u] eqn:Eu. injection Hx as <- <-.
    cbn [c_func c_result c_result_text get] in *.
    apply format_spec in Hf as (texts & kept & HF1 & Hk & -> & _). unfold format_with in Hk. cbn [o_write_argname o_write_types andb set_args f_args] in Hk. cbn [set_args f_args] in HF1.
    exists c3, r, texts, kept. cbn [f_args]. split; [exact HF1|]. split; [|split; [reflexivity|split; [reflexivity|]]].
    - replace (map (fun ax : arg * text => snd ax) (combine (zip_args values formats) texts)) with texts in Hk; [exact Hk|].
      clear - HF1. induction HF1 as [|x y lx ly _ _ IH]; [reflexivity|]. cbn [combine map snd]. now rewrite <- IH.
    - cbn [o_write_types]. rewrite andb_false_r. rewrite Eu. reflexivity.
  Qed.

  (** ... is in the output *)
  Lemma made_line pid x l acts e output status b name restype formats values : strace_run pid x l acts e output status -> makes p acts name values b ->
    name <> T "socketcall" -> name <> T "execve" -> preformat name = [] -> has_prototype name restype formats -> List.length values = List.length formats ->
    let f := Func name (Some restype) (zip_args values formats) in
    exists r texts kept lines, Forall2 (fun a x => getText (st_view b) f a = Ok x) (f_args f) texts /\ without_trailing_empty texts kept /\
      st_result b = Ok r /\ output = text_of_lines lines /\
      In (in_columns 40 (name ++ T "(" ++ join (T ", ") kept ++ T ")") ++ T " = " ++ snd (result_text p errorcode strerror restype r)) lines.
  Proof.
    intros Hrun (a & Hin & He) Hs Hx Hpre Hproto Hlen. cbv zeta.
    assert (running_linux p = true) as Hl by (destruct Hrun as (? & ? & ? & ? & ? & ? & ? & ? & ? & ? & ? & ? & ? & ? & ? & ? & ? & ? & ? & ? & H & _); exact H).
    assert (p_cpu p <> OtherCPU) as Hcpu by (intros E; destruct He as (? & ? & ? & _ & H & _); rewrite E in H; discriminate H).
    apply run_output in Hrun as (ls & le & Hst & _ & -> & _ & _).
    assert (exists c r texts kept, Forall2 (fun a x => getText (st_view b) (Func name (Some restype) (zip_args values formats)) a = Ok x) (zip_args values formats) texts /\ without_trailing_empty texts kept /\
      st_result b = Ok r /\ In (LSyscall 0 c (in_columns 40 (name ++ T "(" ++ join (T ", ") kept ++ T ")") ++ T " = " ++ snd (result_text p errorcode strerror restype r))) ls) as (c & r & texts & kept & H1 & H2 & H3 & H4).
    { pose proof (fun l1 l2 H => call_text (x :: l) pid 0%nat a b b l1 l2 name restype formats values Hl Hcpu H He Hs Hpre Hproto Hlen) as Hct. cbv zeta in Hct. cbn [f_args] in Hct.
      clear le e Hproto Hpre Hlen He Hs Hx. revert Hin Hct. generalize (zip_args values formats). intros args Hin Hct.
      induction Hst as [|a' b' l1 l2 acts ls H _ _ IH|a' b' z l1 l2 acts ls H _ _ _ IH|a' b' l1 l2 acts ls H Ht _ IH|s acts ls _ IH].
      - destruct Hin.
      - destruct Hin as [E|Hin].
        + injection E as -> ->. destruct (Hct _ _ H) as (c & r & texts & kept & H1 & H2 & H3 & H4 & H5).
          exists c, r, texts, kept. split; [exact H1|]. split; [exact H2|]. split; [exact H3|]. rewrite H5. apply in_or_app. right. apply in_or_app. left. left. reflexivity.
        + destruct (IH Hin) as (c & r & texts & kept & H1 & H2 & H3 & H4). exists c, r, texts, kept. split; [exact H1|]. split; [exact H2|]. split; [exact H3|]. apply in_or_app. right. apply in_or_app. right. exact H4.
      - destruct Hin as [E|Hin]; [discriminate E|]. destruct (IH Hin) as (c & r & texts & kept & H1 & H2 & H3 & H4). exists c, r, texts, kept. split; [exact H1|]. split; [exact H2|]. split; [exact H3|]. apply in_or_app. right. apply in_or_app. right. exact H4.
      - discriminate Ht.
      - destruct Hin as [E|Hin]; [discriminate E|exact (IH Hin)]. }
    exists r, texts, kept, (execve_line x (x :: l) pid :: map line_text (ls ++ le)). split; [exact H1|]. split; [exact H2|]. split; [exact H3|]. split; [reflexivity|].
    right. apply (in_map line_text) in H4. rewrite map_app, in_app_iff. left. exact H4.
  Qed.
End Line.
