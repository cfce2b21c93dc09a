From Coq Require Import ZArith List Ascii String Bool Lia.
From Verif Require Import PyBase PyFacts Platform IntModel IntSpec IntProofs RegModel SigModel TabModel TabSpec TabProofs ArgModel ArgSpec ArgProofs ArgProofs3 DbgModel SysModel SysSpec.
Import ListNotations.
Open Scope Z_scope.

Lemma Forall2_length {A B} (R : A -> B -> Prop) l1 l2 : Forall2 R l1 l2 -> List.length l1 = List.length l2.
Proof. induction 1; cbn; congruence. Qed.
Lemma nth_firstn {A} n : forall i (l : list A) w, nth_error (firstn n l) i = Some w -> nth_error l i = Some w.
Proof. induction n as [|n IH]; intros [|i] [|x l]; cbn; try discriminate; auto. Qed.
Lemma Forall2_nth {A B} (R : A -> B -> Prop) l1 l2 : Forall2 R l1 l2 -> forall k x y, nth_error l1 k = Some x -> nth_error l2 k = Some y -> R x y.
Proof. intros H. induction H; intros [|k] x0 y0; cbn; try discriminate; [intros [= <-] [= <-]; assumption|apply IHForall2]. Qed.
Lemma digit_is d : 0 <= d < 10 -> is_digit (digit_char d) = true.
Proof. intros H. assert (d = 0 \/ d = 1 \/ d = 2 \/ d = 3 \/ d = 4 \/ d = 5 \/ d = 6 \/ d = 7 \/ d = 8 \/ d = 9) as Hc by lia. repeat destruct Hc as [->|Hc]; subst; reflexivity. Qed.
Lemma digits_head n : 0 <= n -> exists c r, digits 10 n = c :: r /\ is_digit c = true.
Proof.
  intros Hn. pose proof (digits_Forall (fun c => is_digit c = true) 10 n ltac:(lia) digit_is Hn) as H. pose proof (digits_nonempty 10 n) as Hne.
  destruct (digits 10 n) as [|c r]; [congruence|]. inversion H; subst. now exists c, r.
Qed.
Lemma str_int_head n : exists c r, str_int n = c :: r /\ (is_digit c = true \/ c = "-"%char).
Proof.
  unfold str_int, fmt_int. destruct (n <? 0) eqn:E; zb.
  - exists "-"%char, (digits 10 (- n)). auto.
  - destruct (digits_head n E) as (c & r & H1 & H2). exists c, r. auto.
Qed.
Lemma no_number_call n : dget text_eqb (str_int n) SYSCALL_PROTOTYPES = None.
Proof.
  apply (dget_None text_eqb text_eqb_iff). intros Hin. destruct (str_int_head n) as (c0 & r0 & Hs & Hc0).
  assert (forallb (fun x => match x with c1 :: _ => negb (is_digit c1 || Ascii.eqb c1 "-"%char) | [] => true end) (map fst SYSCALL_PROTOTYPES) = true) as Hall by (vm_compute; reflexivity).
  rewrite forallb_forall in Hall. apply Hall in Hin. rewrite Hs in Hin. destruct Hc0 as [H| ->]; [rewrite H in Hin|]; discriminate Hin.
Qed.

#[local] Opaque SYSCALL_PROTOTYPES.

Section Facts.
  Context (p : platform) (ns : namespace) (repr_fs : list byte -> text) (errorcode : list (Z * text)) (strerror : Z -> text).

  (** ** C36 *)
  Lemma number_register : running_linux p = true -> forall r, abi_number (p_cpu p) = Some r -> SYSCALL_REGISTER p = r.
  Proof. intros Hl r. unfold SYSCALL_REGISTER. rewrite Hl. destruct (p_cpu p); cbn [abi_number]; congruence. Qed.
  Lemma new_spec regs c : new_syscall p regs = Ok c ->
    regs (SYSCALL_REGISTER p) = Ok (c_number c) /\ f_args (c_func c) = [] /\ f_restype (c_func c) = Some (T "long") /\
    (forall name, has_number p (c_number c) name -> f_name (c_func c) = name) /\
    ((forall name, ~ has_number p (c_number c) name) -> f_name (c_func c) = T "syscall<" ++ str_int (c_number c) ++ T ">") /\
    c_result c = None /\ c_result_text c = None /\ c_instr_pointer c = None.
  Proof.
    unfold new_syscall, readSyscall. destruct (regs (SYSCALL_REGISTER p)) as [n|e]; cbn [bind]; [|discriminate].
    destruct (SYSCALL_NAMES p) as [names|e] eqn:E; cbn [bind]; [|discriminate]. intros [= <-]. cbn [c_number c_func c_result c_result_text c_instr_pointer f_args f_name f_restype fst snd].
    split; [reflexivity|]. split; [reflexivity|]. split; [reflexivity|]. split; [|split; [|auto]].
    - intros name H. apply (has_number_dget p n name names E) in H. now rewrite H.
    - intros H. destruct (dget Z.eqb n names) as [name'|] eqn:Ed; [|reflexivity]. exfalso. apply (H name'). now apply (has_number_dget p n name' names E).
  Qed.
  Lemma upd_nth_params i g l : (forall a : arg, a_value (g a) = a_value a /\ a_type (g a) = a_type a /\ a_name (g a) = a_name a) ->
    map (fun a => (a_value a, a_type a, a_name a)) (upd_nth i g l) = map (fun a => (a_value a, a_type a, a_name a)) l.
  Proof.
    intros Hg. revert i. induction l as [|a l IH]; intros [|i]; cbn; try reflexivity; [|now rewrite IH]. destruct (Hg a) as (-> & -> & ->). reflexivity.
  Qed.
  Lemma format_now_spec opts v : forall indices f f', format_now p ns repr_fs opts v indices f = Ok f' ->
    f_name f' = f_name f /\ f_restype f' = f_restype f /\ params f' = params f.
  Proof.
    induction indices as [|i indices IH]; intros f f'; cbn [format_now]; [intros [= <-]; auto|].
    destruct (nth_arg i (f_args f)) as [a|e]; cbn [bind]; [|discriminate]. destruct (getText p ns repr_fs opts v f a) as [t|e]; cbn [bind]; [|discriminate].
    intros H. apply IH in H as (H1 & H2 & H3). cbn [set_args f_name f_restype] in *. split; [exact H1|]. split; [exact H2|]. rewrite H3. unfold params. cbn [set_args f_args].
    apply upd_nth_params. intros b. now destruct b.
  Qed.
  Lemma zip_params values formats : map (fun a => (a_value a, a_type a, a_name a)) (zip_args values formats) = typed values formats.
  Proof. revert formats. induction values as [|x values IH]; intros [|[ty nm] formats]; cbn; try reflexivity. f_equal. apply IH. Qed.
  Lemma args_registers regs v sp values : p_cpu p <> OtherCPU -> running_linux p = true \/ p_cpu p = X86_64 ->
    readArgumentValues p v sp regs = Ok values -> exists first rest, values = first ++ rest /\ Forall2 (fun name x => regs name = Ok x) (abi_arguments (p_cpu p)) first.
  Proof.
    intros Hc Hl. unfold readArgumentValues, argument_registers, supported_cpu, running_bsd.
    assert (forall l1 l2, mapM regs (l1 ++ l2) = Ok values -> exists first rest, values = first ++ rest /\ Forall2 (fun name x => regs name = Ok x) l1 first) as Happ.
    { intros l1 l2 H. apply mapM_Forall2 in H. apply Forall2_app_inv_l in H as (first & rest & H1 & _ & ->). now exists first, rest. }
    destruct (p_cpu p) eqn:Ec; try contradiction; try (destruct Hl as [Hl|Hl]; [rewrite Hl|discriminate Hl]); cbn [negb abi_arguments]; intros H;
      try (apply (Happ _ []); rewrite app_nil_r; exact H).
    - exact (Happ [T "r0"; T "r1"; T "r2"; T "r3"; T "r4"; T "r5"] [T "r6"] H).
    - exact (Happ [T "r0"; T "r1"; T "r2"; T "r3"; T "r4"; T "r5"] [T "r6"; T "r7"] H).
    - exact (Happ [T "a0"; T "a1"; T "a2"; T "a3"; T "a4"; T "a5"] [T "a6"] H).
    - exact (Happ [T "a0"; T "a1"; T "a2"; T "a3"; T "a4"; T "a5"] [T "a6"] H).
  Qed.
  Lemma abi_length : p_cpu p <> OtherCPU -> List.length (abi_arguments (p_cpu p)) = 6%nat.
  Proof. intros H. destruct (p_cpu p); try reflexivity. contradiction. Qed.
  Definition replaced (opts : options) (f : func) : bool := text_eqb (f_name f) (T "socketcall") && o_replace_socketcall opts.
  Lemma enter_plain opts v sp regs c c' : enter p ns repr_fs opts v sp regs c = Ok c' -> replaced opts (c_func c) = false -> f_args (c_func c) = [] ->
    exists values, readArgumentValues p v sp regs = Ok values /\ f_name (c_func c') = f_name (c_func c) /\ c_number c' = c_number c /\ c_result c' = c_result c /\
      f_restype (c_func c') = f_restype (readArguments (c_func c) values) /\ params (c_func c') = params (readArguments (c_func c) values).
  Proof.
    unfold enter, replaced. destruct (readArgumentValues p v sp regs) as [values|e]; cbn [bind]; [|discriminate]. intros H Hr Ha. exists values. split; [reflexivity|].
    assert (f_name (readArguments (c_func c) values) = f_name (c_func c)) as Hn.
    { unfold readArguments. destruct (dget _ _ _) as [[? ?]|]; reflexivity. }
    cbv zeta in H. rewrite Hn, Hr in H. cbn [bind] in H. set (rf := readArguments (c_func c) values) in *. clearbody rf.
    match type of H with context [format_now p ns repr_fs opts v ?i rf] => destruct (format_now p ns repr_fs opts v i rf) as [f'|e] eqn:E end; cbn [bind] in H; [|discriminate].
    apply format_now_spec in E as (E1 & E2 & E3).
    destruct (if o_instr_pointer opts then _ else _) as [ip|e]; cbn [bind] in H; [|discriminate]. injection H as <-. cbn [c_func c_number c_result].
    rewrite E1, Hn. auto.
  Qed.
  Lemma zip_firstn first rest formats : (List.length formats <= List.length first)%nat -> typed (first ++ rest) formats = typed (firstn (List.length formats) first) formats.
  Proof.
    revert first. induction formats as [|x formats IH]; intros first Hl; unfold typed.
    - destruct (first ++ rest), (firstn (List.length (@nil (text * text))) first); reflexivity.
    - destruct first as [|y first]; [cbn in Hl; lia|]. cbn. f_equal. apply (IH first). cbn in Hl. lia.
  Qed.
  Lemma Forall2_firstn {A B} (R : A -> B -> Prop) n : forall l1 l2, Forall2 R l1 l2 -> Forall2 R (firstn n l1) (firstn n l2).
  Proof. induction n as [|n IH]; intros l1 l2 H; [constructor|]. inversion H; subst; cbn; constructor; auto. Qed.
  Lemma known_spec opts v sp regs c c' restype formats : p_cpu p <> OtherCPU -> running_linux p = true \/ p_cpu p = X86_64 ->
    enter p ns repr_fs opts v sp regs c = Ok c' -> replaced opts (c_func c) = false -> f_args (c_func c) = [] -> has_prototype (f_name (c_func c)) restype formats ->
    exists values, Forall2 (fun name x => regs name = Ok x) (firstn (List.length formats) (abi_arguments (p_cpu p))) values /\
      List.length values = List.length formats /\ params (c_func c') = typed values formats /\
      f_name (c_func c') = f_name (c_func c) /\ f_restype (c_func c') = Some restype /\ c_number c' = c_number c.
  Proof.
    intros Hc Hl He Hr Ha Hp. destruct (enter_plain opts v sp regs c c' He Hr Ha) as (values & Hv & E1 & E2 & _ & E3 & E4).
    apply (args_registers regs v sp values Hc Hl) in Hv as (first & rest & -> & HF). exists (firstn (List.length formats) first).
    assert (List.length first = 6%nat) as Hlen by (apply Forall2_length in HF; rewrite <- HF; now apply abi_length).
    assert (List.length formats <= 6)%nat as H6 by exact (proj1 (proj2 (prototypes_fine _ _ _ Hp))).
    split; [now apply Forall2_firstn|]. split; [rewrite firstn_length; lia|]. rewrite E3, E4. unfold readArguments. rewrite (dget_has_prototype _ _ _ Hp). cbn [f_restype].
    split; [|auto]. unfold params. cbn [f_args]. rewrite Ha. cbn [app]. rewrite zip_params. apply zip_firstn. lia.
  Qed.
  Lemma unknown_spec opts v sp regs c c' : p_cpu p <> OtherCPU -> running_linux p = true \/ p_cpu p = X86_64 ->
    enter p ns repr_fs opts v sp regs c = Ok c' -> replaced opts (c_func c) = false -> f_args (c_func c) = [] -> (forall r f, ~ has_prototype (f_name (c_func c)) r f) ->
    exists first rest, Forall2 (fun name x => regs name = Ok x) (abi_arguments (p_cpu p)) first /\
      params (c_func c') = map (fun x => (x, None, None)) (first ++ rest) /\ f_name (c_func c') = f_name (c_func c).
  Proof.
    intros Hc Hl He Hr Ha Hp. destruct (enter_plain opts v sp regs c c' He Hr Ha) as (values & Hv & E1 & E2 & _ & E3 & E4).
    apply (args_registers regs v sp values Hc Hl) in Hv as (first & rest & -> & HF). exists first, rest. split; [exact HF|]. split; [|exact E1]. rewrite E4.
    unfold readArguments. destruct (dget text_eqb (f_name (c_func c)) SYSCALL_PROTOTYPES) as [[r f]|] eqn:E; [exfalso; apply (Hp r f); now apply has_prototype_dget|].
    unfold params. cbn [set_args f_args]. rewrite Ha. cbn [app]. rewrite map_map. reflexivity.
  Qed.
  Lemma bsd_i386_spec opts v sp regs c c' restype formats : p_cpu p = I386 -> running_bsd p = true ->
    enter p ns repr_fs opts v sp regs c = Ok c' -> replaced opts (c_func c) = false -> f_args (c_func c) = [] -> has_prototype (f_name (c_func c)) restype formats ->
    exists a values, sp = Ok a /\ words_at p v (a + word_size p) values /\
      List.length values = List.length formats /\ params (c_func c') = typed values formats /\ f_restype (c_func c') = Some restype.
  Proof.
    intros Hc Hb He Hr Ha Hp. destruct (enter_plain opts v sp regs c c' He Hr Ha) as (values & Hv & E1 & E2 & _ & E3 & E4).
    assert (List.length formats <= 6)%nat as H6 by exact (proj1 (proj2 (prototypes_fine _ _ _ Hp))). pose proof (dget_has_prototype _ _ _ Hp) as Hd. clear He Hp.
    unfold readArgumentValues, argument_registers in Hv. rewrite Hc, Hb in Hv. destruct sp as [a|e]; cbn [bind] in Hv; [|discriminate Hv].
    apply mapM_Forall2 in Hv.
    assert (List.length values = 6%nat) as Hlen by (apply Forall2_length in Hv; now rewrite <- Hv).
    exists a, (firstn (List.length formats) values). split; [reflexivity|]. split; [|split; [rewrite firstn_length; lia|]].
    - intros i w Hi. pose proof (nth_firstn _ _ _ _ Hi) as Hi'.
      assert (i < 6)%nat as Hi6. { rewrite <- Hlen. apply nth_error_Some. rewrite Hi'. discriminate. }
      pose proof (Forall2_nth _ _ _ Hv) as HF.
      assert (nth_error [1; 2; 3; 4; 5; 6] i = Some (Z.of_nat i + 1)) as Hx by (clear -Hi6; do 6 (destruct i as [|i]; [reflexivity|]); lia).
      rewrite <- (HF i _ _ Hx Hi'). f_equal. ring.
    - rewrite E3, E4. unfold readArguments. rewrite Hd. cbn [f_restype]. split; [|reflexivity]. unfold params. cbn [f_args]. rewrite Ha. cbn [app]. rewrite zip_params.
      rewrite <- (app_nil_r values) at 1. apply zip_firstn. lia.
  Qed.

  (** ** C40 at the enter of a call *)
  Lemma socketcall_replaced opts v sp regs c c' : enter p ns repr_fs opts v sp regs c = Ok c' -> replaced opts (c_func c) = true -> f_args (c_func c) = [] ->
    p_cpu p <> OtherCPU -> running_linux p = true ->
    exists number address name restype formats, regs (nth 0 (abi_arguments (p_cpu p)) []) = Ok number /\ regs (nth 1 (abi_arguments (p_cpu p)) []) = Ok address /\
      In (number, name) SOCKETCALL /\ has_prototype name restype formats /\ f_name (c_func c') = name /\ f_restype (c_func c') = Some restype /\
      words_at p v address (map a_value (f_args (c_func c'))) /\ params (c_func c') = typed (map a_value (f_args (c_func c'))) formats /\
      List.length (f_args (c_func c')) = List.length formats.
  Proof.
    unfold enter, replaced. intros H Hr Ha Hc Hl. destruct (readArgumentValues p v sp regs) as [values|e] eqn:Hv; cbn [bind] in H; [|discriminate H].
    apply (args_registers regs v sp values Hc (or_introl Hl)) in Hv as (first & rest & -> & HF).
    assert (f_name (c_func c) = T "socketcall") as Hsc by (apply andb_prop in Hr as [Hr _]; now apply text_eqb_eq).
    assert (dget text_eqb (T "socketcall") SYSCALL_PROTOTYPES = Some (T "long", [(T "int", T "call"); (T "unsigned long *", T "args")])) as Hd by (vm_compute; reflexivity).
    unfold readArguments in H. rewrite Hsc, Hd, Ha in H. clear Hd. cbn [f_name app f_args] in H. change (text_eqb (T "socketcall") (T "socketcall")) with true in H. rewrite Hsc in Hr. change (text_eqb (T "socketcall") (T "socketcall")) with true in Hr. cbn [andb] in Hr, H. rewrite Hr in H.
    assert (exists number address tl1 tl2, abi_arguments (p_cpu p) = nth 0 (abi_arguments (p_cpu p)) [] :: nth 1 (abi_arguments (p_cpu p)) [] :: tl1 /\ first = number :: address :: tl2) as (number & address & tl1 & tl2 & Et & ->).
    { pose proof (abi_length Hc) as Hlen. destruct (abi_arguments (p_cpu p)) as [|r0 [|r1 tl1]]; try discriminate Hlen. inversion HF as [|? number ? l2 ? HF']; subst. inversion HF' as [|? address ? l3 ? ?]; subst. exists number, address, tl1, l3. split; reflexivity. }
    rewrite Et in HF. inversion HF as [|? ? ? ? Hn HF']; subst. inversion HF' as [|? ? ? ? Ha' _]; subst.
    cbn [app zip_args] in H. unfold nth_arg in H. cbn [nth_error bind] in H.
    match type of H with context [getText p ns repr_fs opts v ?f ?a] => set (f0 := f) in *; set (a0 := a) in * end.
    destruct (getText p ns repr_fs opts v f0 a0) as [name|e] eqn:Eg; cbn [bind] in H; [|discriminate H].
    cbn [a_value] in H. destruct (setupSocketCall p v name address) as [f|e] eqn:Es; cbn [bind] in H; [|discriminate H].
    destruct (format_now p ns repr_fs opts v (preformat (f_name f)) f) as [f'|e] eqn:Ef; cbn [bind] in H; [|discriminate H]. apply format_now_spec in Ef as (E1 & E2 & E3).
    destruct (if o_instr_pointer opts then _ else _) as [ip|e]; cbn [bind] in H; [|discriminate H]. injection H as <-. cbn [c_func].
    unfold setupSocketCall in Es. destruct (dget text_eqb name SYSCALL_PROTOTYPES) as [[r fo]|] eqn:Ed; [|discriminate Es].
    destruct (socket_args p v fo address) as [l|e] eqn:El; cbn [bind] in Es; [|discriminate Es]. injection Es as <-.
    cbn [f_name f_restype f_args] in *. pose proof (socket_args_length p v fo address l El) as [Hw Hlen].
    assert (map a_value (f_args f') = map a_value l) as Hval by (unfold params in E3; cbn [f_args] in E3; apply (f_equal (map (fun x => fst (fst x)))) in E3; rewrite !map_map in E3; exact E3).
    exists number, address, name, r, fo. split; [exact Hn|]. split; [exact Ha'|].
    assert (getText p ns repr_fs opts v f0 a0 = Ok match dget Z.eqb number SOCKETCALL with Some t => t | None => str_int number end) as Hg.
    { unfold getText, getText_, createText, createText_, f0, a0. cbn [a_text truthy a_type a_name a_value f_name]. 
      assert (dget text_eqb (T "socketcall") (SYSCALL_ARG_DICT p) = None) as -> by (unfold SYSCALL_ARG_DICT; destruct (p_os p); reflexivity). reflexivity. }
    rewrite Hg in Eg. assert (match dget Z.eqb number SOCKETCALL with Some t => t | None => str_int number end = name) as Eg' by congruence. clear Eg Hg. split; [|split; [now apply has_prototype_dget|]].
    - destruct (dget Z.eqb number SOCKETCALL) as [t|] eqn:E; [subst t; now apply (dget_In Z.eqb Z.eqb_eq)|]. exfalso. rewrite <- Eg' in Ed.
      rewrite no_number_call in Ed. discriminate Ed.
    - split; [exact E1|]. split; [exact E2|]. rewrite Hval. split; [exact Hw|]. rewrite E3. split.
      + unfold params. cbn [f_args]. clear -El. revert address l El. induction fo as [|[ty nm] fo IH]; intros address l; cbn [socket_args]; [intros [= <-]; reflexivity|].
        destruct (v_word v address) as [w|e]; cbn [bind]; [|discriminate]. destruct (socket_args p v fo (address + word_size p)) as [l'|e] eqn:E; cbn [bind]; [|discriminate]. intros [= <-].
        cbn. f_equal. apply (IH _ _ E).
      + unfold params in E3. cbn [f_args] in E3. apply (f_equal (@List.length _)) in E3. rewrite !map_length in E3. lia.
  Qed.
End Facts.
