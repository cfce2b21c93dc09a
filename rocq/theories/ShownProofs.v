(** * ShownProofs: lemmas about which decoder shows an argument. *)
From Coq Require Import ZArith List Ascii String Bool Lia.
From Verif Require Import PyBase PyFacts Platform IntModel IntSpec IntProofs SigModel TabModel TabSpec TabProofs ToolsModel ArgModel ArgSpec ArgProofs ArgProofs2 ArgProofs3 ShownSpec.
Import ListNotations.
Open Scope Z_scope.

(** ** Tables *)
Fixpoint nodupb {A} (eqb : A -> A -> bool) (l : list A) : bool :=
  match l with [] => true | x :: l => negb (existsb (eqb x) l) && nodupb eqb l end.
Lemma nodupb_spec {A} (eqb : A -> A -> bool) (Heq : forall x y, eqb x y = true <-> x = y) l : nodupb eqb l = true -> NoDup l.
Proof.
  induction l as [|x l IH]; [constructor|]. cbn [nodupb]. intros H. apply andb_true_iff in H as [H1 H2]. constructor; [|auto].
  intros Hin. apply negb_true_iff in H1. assert (existsb (eqb x) l = true) as E; [|congruence]. apply existsb_exists. exists x. split; [exact Hin|now apply Heq].
Qed.
Definition dict_ok (d : list (text * list (text * list (Z * text)))) : bool :=
  nodupb text_eqb (map fst d) &&
  forallb (fun e => nodupb text_eqb (map fst (snd e)) &&
    forallb (fun a => negb (text_eqb (fst a) []) && negb (text_eqb (fst a) (T "signum")) && nodupb Z.eqb (map fst (snd a))) (snd e)) d.
Lemma dict_checked p : dict_ok (SYSCALL_ARG_DICT p) = true.
Proof. unfold SYSCALL_ARG_DICT. destruct (p_os p); vm_compute; reflexivity. Qed.
Definition looked_up (p : platform) (call name : text) (value : Z) : option text :=
  match dget text_eqb call (SYSCALL_ARG_DICT p) with
  | Some d => match dget text_eqb name d with Some d => dget Z.eqb value d | None => None end
  | None => None
  end.
Lemma named_looked p call name value t : named p call name value t <-> looked_up p call name value = Some t.
Proof.
  pose proof (dict_checked p) as H. unfold dict_ok in H. apply andb_true_iff in H as [H1 H2]. rewrite forallb_forall in H2.
  apply (nodupb_spec _ text_eqb_iff) in H1. unfold looked_up. split.
  - intros (args & l & Ha & Hl & Ht). specialize (H2 _ Ha). cbn [fst snd] in H2. apply andb_true_iff in H2 as [H2 H3]. rewrite forallb_forall in H3.
    apply (nodupb_spec _ text_eqb_iff) in H2. rewrite (dget_NoDup_In text_eqb text_eqb_iff _ _ _ H1 Ha).
    rewrite (dget_NoDup_In text_eqb text_eqb_iff _ _ _ H2 Hl). specialize (H3 _ Hl). cbn [fst snd] in H3. apply andb_true_iff in H3 as [_ H3].
    apply (nodupb_spec _ Z.eqb_eq) in H3. exact (dget_NoDup_In Z.eqb Z.eqb_eq _ _ _ H3 Ht).
  - destruct (dget text_eqb call _) as [args|] eqn:E1; [|discriminate]. destruct (dget text_eqb name args) as [l|] eqn:E2; [|discriminate]. intros E3.
    exists args, l. split; [now apply (dget_In text_eqb text_eqb_iff)|]. split; [now apply (dget_In text_eqb text_eqb_iff)|now apply (dget_In Z.eqb Z.eqb_eq)].
Qed.
Lemma named_name p call name value t : named p call name value t -> name <> [] /\ name <> T "signum".
Proof.
  intros (args & l & Ha & Hl & _). pose proof (dict_checked p) as H. unfold dict_ok in H. apply andb_true_iff in H as [_ H2]. rewrite forallb_forall in H2.
  specialize (H2 _ Ha). cbn [fst snd] in H2. apply andb_true_iff in H2 as [_ H3]. rewrite forallb_forall in H3. specialize (H3 _ Hl). cbn [fst snd] in H3.
  apply andb_true_iff in H3 as [H3 _]. apply andb_true_iff in H3 as [H3 H4]. apply negb_true_iff in H3, H4. split; intros E.
  - rewrite E in H3. now rewrite (proj2 (text_eqb_eq [] []) eq_refl) in H3.
  - rewrite E in H4. now rewrite (proj2 (text_eqb_eq (T "signum") (T "signum")) eq_refl) in H4.
Qed.
Lemma looked_none p call name value : (forall t, ~ named p call name value t) -> looked_up p call name value = None.
Proof. intros H. destruct (looked_up p call name value) as [t|] eqn:E; [|reflexivity]. destruct (H t). now apply named_looked. Qed.

Lemma harmless_exception e : harmless e -> is_exception e = true.
Proof. intros (H1 & H2 & H3 & H4). destruct e; try reflexivity; exfalso; [now apply H1|now apply (H2 code)|now apply H3|now apply H4]. Qed.

Section Shown.
  Context (p : platform) (ns : namespace) (repr_fs : list byte -> text) (opts : options) (v : view).
  Notation createText := (createText p ns repr_fs opts v).
  Notation getText := (getText p ns repr_fs opts v).
  Notation callback := (argument_callback p ns opts v).

  Lemma fresh f a t : absent (a_text a) -> createText f a = Ok (Some t) -> getText f a = Ok t.
  Proof. intros Hx. apply (getText_fallback p ns repr_fs opts v f a Hx). Qed.
  Lemma truthy_some (t : text) : t <> [] -> truthy (Some t) = true.
  Proof. destruct t; [congruence|reflexivity]. Qed.

  Lemma named_shown f a name t : absent (a_text a) -> truthy (a_type a) = true -> a_name a = Some name -> named p (f_name f) name (a_value a) t -> getText f a = Ok t.
  Proof.
    intros Hx Ht Hn Hd. apply fresh; [exact Hx|]. destruct (named_name _ _ _ _ _ Hd) as [Hne _]. apply named_looked in Hd. unfold looked_up in Hd.
    unfold ArgModel.createText, createText_. rewrite Hn, Ht, (truthy_some name Hne). cbn [negb orb get]. now rewrite Hd.
  Qed.
  Lemma decoded_shown f a name d : absent (a_text a) -> truthy (a_type a) = true -> a_name a = Some name -> In ((f_name f, name), d) (decoders p ns) ->
    (forall t, ~ named p (f_name f) name (a_value a) t) -> getText f a = Ok (d (a_value a)).
  Proof.
    intros Hx Ht Hn Hd Hno. apply fresh; [exact Hx|]. apply looked_none in Hno. unfold looked_up in Hno.
    assert (truthy (Some name) = true /\ exists g, callback (f_name f) name = Some g /\ g f (a_value a) = Ok (Some (d (a_value a)))) as (Hne & g & Hg & Hv).
    { unfold decoders in Hd. cbn [In] in Hd.
      repeat (destruct Hd as [Hd|Hd]; [injection Hd as E1 E2 E3; rewrite <- E1, <- E2, <- E3; split; [reflexivity|]; eexists; split; reflexivity|]). destruct Hd. }
    unfold ArgModel.createText, createText_. rewrite Hn, Ht, Hne. cbn [negb orb get]. rewrite Hno, Hg. exact Hv.
  Qed.
  Lemma pair_neq call name a b : (call, name) <> (a, b) -> text_eqb call a && text_eqb name b = false.
  Proof.
    intros H. destruct (text_eqb call a) eqn:E1; [|reflexivity]. destruct (text_eqb name b) eqn:E2; [|reflexivity].
    apply text_eqb_eq in E1, E2. subst. congruence.
  Qed.
  Lemma no_callback call name : ~ In (call, name) decoded_pairs -> callback call name = None.
  Proof.
    intros H. unfold argument_callback.
    assert (forall x y, In (x, y) decoded_pairs -> text_eqb call x && text_eqb name y = false) as Hx.
    { intros x y Hin. apply pair_neq. intros E. apply H. now rewrite E. }
    rewrite !(fun x y Hin => Hx x y Hin) by (unfold decoded_pairs; cbn [In]; tauto). reflexivity.
  Qed.
  Lemma signal_shown f a : absent (a_text a) -> truthy (a_type a) = true -> a_name a = Some (T "signum") -> getText f a = Ok (signalName ns (a_value a)).
  Proof.
    intros Hx Ht Hn. apply fresh; [exact Hx|].
    assert (looked_up p (f_name f) (T "signum") (a_value a) = None) as Hno.
    { apply looked_none. intros t Hd. now destruct (named_name _ _ _ _ _ Hd). }
    unfold looked_up in Hno. unfold ArgModel.createText, createText_. rewrite Hn, Ht. change (truthy (Some (T "signum"))) with true. cbn [negb orb get].
    rewrite Hno, no_callback by (unfold decoded_pairs; cbn [In]; intuition discriminate).
    change (text_eqb (T "signum") (T "argv")) with false. change (text_eqb (T "signum") (T "envp")) with false. change (text_eqb (T "signum") (T "call")) with false.
    change (text_eqb (T "signum") (T "args")) with false. change (text_eqb (T "signum") (T "buf")) with false. cbn [orb]. rewrite !andb_false_r. reflexivity.
  Qed.
  (** shown by the type *)
  Lemma plain_text f a ty : plain p f a -> has_type a ty ->
    createText f a = if existsb (text_eqb (get (a_name a))) FILENAME_ARGUMENTS && text_eqb ty (T "char *")
                     then do t <- readCString p repr_fs opts v (a_value a); Ok (Some t) else createText_type p ns opts v f (a_value a) ty.
  Proof.
    intros (name & Hn & Hne & Hsig & Hpair & Hno) (Hty & Hc & Ht). apply looked_none in Hno. unfold looked_up in Hno.
    unfold ArgModel.createText, createText_. rewrite Hn, (truthy_some name Hne).
    assert (truthy (a_type a) = true) as -> by (destruct Ht as [-> | ->]; [now apply truthy_some|reflexivity]). cbn [negb orb get].
    rewrite Hno, (no_callback _ _ Hpair).
    assert (forall x y, In (x, y) decoded_pairs -> text_eqb (f_name f) x && text_eqb name y = false) as Hx.
    { intros x y Hin. apply pair_neq. intros E. apply Hpair. now rewrite E. }
    rewrite andb_orb_distrib_r. rewrite !(fun x y Hin => Hx x y Hin) by (unfold decoded_pairs; cbn [In]; tauto). cbn [orb bind].
    replace (text_eqb name (T "signum")) with false by (symmetry; apply text_eqb_neq; exact Hsig).
    assert ((if starts_with (T "const ") (get (a_type a)) then skipn 6 (get (a_type a)) else get (a_type a)) = ty) as E.
    { destruct Ht as [-> | ->]; cbn [get]; [now rewrite Hc|]. destruct (skip_const ty) as [-> ->]. reflexivity. }
    cbv zeta. rewrite E. reflexivity.
  Qed.
  Lemma integer_shown_plain f a ty s b : absent (a_text a) -> plain p f a -> has_type a ty -> c_int_type p ty = Some (s, b) ->
    (raw_type ty -> getText f a = Ok (str_int (a_value a))) /\
    (~ raw_type ty -> forall n, signed_of 32 (a_value a) n -> getText f a = Ok (str_int n)).
  Proof.
    intros Hx Hp Ht Hi. assert (text_eqb ty (T "char *") = false) as Hc.
    { unfold c_int_type in Hi. apply (dget_In text_eqb text_eqb_iff) in Hi. cbn [In] in Hi.
      repeat (destruct Hi as [Hi|Hi]; [injection Hi as <- _ _; reflexivity|]). destruct Hi. }
    pose proof (plain_text f a ty Hp Ht) as E. rewrite Hc, andb_false_r in E. rewrite (int_type_text p ns opts v f _ ty s b Hi) in E.
    assert (existsb (text_eqb ty) [T "unsigned int"; T "unsigned long"; T "u32"] = true <-> raw_type ty) as He.
    { rewrite existsb_exists. unfold raw_type. split; [intros (x & H1 & H2); apply text_eqb_eq in H2; now subst x|].
      intros H. exists ty. split; [exact H|now apply text_eqb_eq]. }
    split; intros Hr; [|intros n Hs]; apply fresh; try exact Hx; rewrite E.
    - apply He in Hr. now rewrite Hr.
    - destruct (existsb _ _); [exfalso; now apply Hr, He|]. do 3 f_equal. apply (signed_unique 32 (a_value a)); [lia|apply uint2int32_spec|exact Hs].
  Qed.
  Lemma no_bracket ty : ~ In "["%char ty -> array_match ty = None.
  Proof.
    induction ty as [|c ty IH]; [reflexivity|]. intros H. cbn [array_match]. cbn [In] in H.
    assert (Ascii.eqb c "["%char = false) as -> by (apply Ascii.eqb_neq; intros E; apply H; now left).
    rewrite IH by tauto. destruct (_ =? _); reflexivity.
  Qed.
  Lemma not_ends ty : (forall b, ty <> b ++ T "*") -> ends_with (T "*") ty = false.
  Proof. intros H. destruct (ends_with (T "*") ty) eqn:E; [|reflexivity]. apply ends_with_spec in E as [b E]. destruct (H b E). Qed.
  Lemma word_shown f a ty : absent (a_text a) -> plain p f a -> has_type a ty -> (forall b, ty <> b ++ T "*") -> ~ In "["%char ty -> c_int_type p ty = None -> 0 <= a_value a ->
    exists t, getText f a = Ok t /\ hex_text t (a_value a) /\ (a_value a < 2 ^ (8 * word_size p) -> zlen t = 2 + 2 * word_size p).
  Proof.
    intros Hx Hp Ht Hs Hb Hi Hv. exists (formatWordHex p (a_value a)).
    split; [|split; [now apply wordhex_spec|intros H; apply wordhex_length; unfold wbits; lia]]. apply fresh; [exact Hx|]. rewrite (plain_text f a ty Hp Ht).
    assert (text_eqb ty (T "char *") = false) as -> by (apply text_eqb_neq; exact (Hs (T "char "))). rewrite andb_false_r.
    unfold createText_type. rewrite (not_ends ty Hs), (no_bracket ty Hb).
    unfold c_int_type in Hi. apply (dget_None text_eqb text_eqb_iff) in Hi. cbn [map fst In] in Hi.
    assert (forall x, x = ty \/ False -> text_eqb ty x = true) as _ by (intros x [->|[]]; now apply text_eqb_eq).
    assert (forall l, ~ In ty l -> existsb (text_eqb ty) l = false) as Hnot.
    { intros l Hl. destruct (existsb (text_eqb ty) l) eqn:E; [|reflexivity]. destruct Hl. now apply in_check. }
    rewrite !Hnot; [reflexivity| |]; unfold INTEGER_TYPES; cbn [In]; intuition congruence.
  Qed.
  (** pointers *)
  Lemma pointer_created f a b : plain p f a -> has_type a (b ++ T "*") -> (b <> T "char " \/ ~ In (get (a_name a)) FILENAME_ARGUMENTS) ->
    createText f a = createText_type p ns opts v f (a_value a) (b ++ T "*").
  Proof.
    intros Hp Ht Hf. rewrite (plain_text f a _ Hp Ht).
    assert (existsb (text_eqb (get (a_name a))) FILENAME_ARGUMENTS && text_eqb (b ++ T "*") (T "char *") = false) as ->; [|reflexivity].
    destruct Hf as [Hf|Hf].
    - replace (text_eqb (b ++ T "*") (T "char *")) with false; [apply andb_false_r|]. symmetry. apply text_eqb_neq. change (T "char *") with (T "char " ++ T "*").
      intros E. apply app_inv_tail in E. contradiction.
    - destruct (existsb _ _) eqn:E; [|reflexivity]. destruct Hf. now apply in_check.
  Qed.
  Lemma unreadable_target f value base e : value <> 0 -> (forall n, v_bytes v value n = Err e) -> is_exception e = true ->
    formatValuePointer p ns opts v f value base = Ok None \/ exists e', formatValuePointer p ns opts v f value base = Err e' /\ is_exception e' = true.
  Proof.
    intros Hv Hr He. unfold formatValuePointer. replace (value =? 0) with false by (symmetry; now apply Z.eqb_neq). cbv zeta.
    assert (forall n, read_raw v value n = Err e) as Hraw by (intros n; unfold read_raw; now rewrite Hr).
    assert (forall n, readBits v value n = Err e) as Hbits by (intros n; unfold ArgModel.readBits; now rewrite Hr).
    set (ty := if starts_with (T "struct ") base then skipn 7 base else base). clearbody ty.
    destruct (text_eqb ty (T "sockaddr")); [right; exists e; unfold formatSockaddr; now rewrite Hraw|].
    destruct (text_eqb ty (T "int")); [right; exists e; unfold read_cint; now rewrite Hraw|].
    destruct (dget text_eqb ty (KNOWN_STRUCTS p)) as [s|]; [right; exists e; unfold readStruct; now rewrite Hraw|].
    destruct (running_linux p && _).
    - unfold nth_arg. destruct (nth_error (f_args f) 0); cbn [bind]; [right; exists e; now rewrite Hbits|right; exists EIndexError; split; reflexivity].
    - destruct (_ && _); [|now left]. right. destruct (find_arg _ _) as [x|e'] eqn:E; cbn [bind]; [exists e; now rewrite Hbits|].
      exists e'. split; [reflexivity|]. clear - E. revert e' E. induction (f_args f) as [|y l IH]; cbn [find_arg]; [intros e' [= <-]; reflexivity|].
      destruct (a_name y) as [m|]; [destruct (text_eqb m _); [discriminate|exact IH]|exact IH].
  Qed.
  Lemma star_ends b : ends_with (T "*") (b ++ T "*") = true.
  Proof. apply ends_with_spec. now exists b. Qed.
  Lemma unreadable_shown f a b e : absent (a_text a) -> plain p f a -> has_type a (b ++ T "*") -> (b <> T "char " \/ ~ In (get (a_name a)) FILENAME_ARGUMENTS) ->
    0 < a_value a -> (forall n, v_bytes v (a_value a) n = Err e) -> harmless e -> exists t, getText f a = Ok t /\ hex_text t (a_value a).
  Proof.
    intros Hx Hp Ht Hf Hv Hr He. exists (formatAddress p (a_value a)). split; [|now apply formatAddress_hex]. apply fresh; [exact Hx|].
    rewrite (pointer_created f a b Hp Ht Hf). unfold createText_type. rewrite star_ends.
    destruct (unreadable_target f (a_value a) (strip (removelast (b ++ T "*"))) e) as [->|(e' & -> & ->)]; [lia|exact Hr|now apply harmless_exception| |]; reflexivity.
  Qed.
  Lemma opaque_shown f a base : absent (a_text a) -> plain p f a -> has_type a (base ++ T " *") -> strip base = base ->
    (base <> T "char" \/ ~ In (get (a_name a)) FILENAME_ARGUMENTS) -> ~ In base (shown_targets p (f_name f)) -> (forall s, base = T "struct " ++ s -> ~ In s (shown_targets p (f_name f))) ->
    0 < a_value a -> exists t, getText f a = Ok t /\ hex_text t (a_value a).
  Proof.
    intros Hx Hp Ht Hs Hf Hno Hno' Hv. exists (formatAddress p (a_value a)). split; [|now apply formatAddress_hex]. apply fresh; [exact Hx|].
    assert (base ++ T " *" = (base ++ T " ") ++ T "*") as E by (rewrite <- app_assoc; reflexivity).
    rewrite E in Ht. rewrite (pointer_created f a (base ++ T " ") Hp Ht).
    2:{ destruct Hf as [Hf|Hf]; [left|now right]. change (T "char ") with (T "char" ++ T " "). intros E'. apply app_inv_tail in E'. contradiction. }
    unfold createText_type. rewrite star_ends. rewrite <- E, (strip_star base Hs).
    unfold formatValuePointer. replace (a_value a =? 0) with false by (symmetry; apply Z.eqb_neq; lia). cbv zeta.
    set (ty := if starts_with (T "struct ") base then skipn 7 base else base). assert (~ In ty (shown_targets p (f_name f))) as Hty.
    { unfold ty. destruct (starts_with (T "struct ") base) eqn:E1; [|exact Hno]. apply starts_with_spec in E1 as [r E1]. rewrite E1. exact (Hno' r E1). }
    clearbody ty. unfold shown_targets in Hty. rewrite !in_app_iff in Hty.
    assert (text_eqb ty (T "sockaddr") = false) as -> by (apply text_eqb_neq; intros ->; apply Hty; left; now left).
    assert (text_eqb ty (T "int") = false) as -> by (apply text_eqb_neq; intros ->; apply Hty; left; right; now left).
    assert (dget text_eqb ty (KNOWN_STRUCTS p) = None) as ->.
    { apply (dget_None text_eqb text_eqb_iff). intros Hin. apply Hty. right. left. unfold KNOWN_STRUCTS in Hin. destruct (running_linux p); [|destruct Hin].
      unfold linux_structs in Hin. cbn [map fst In] in Hin. cbn [In]. tauto. }
    assert (running_linux p && text_eqb ty (T "fd_set") = false) as ->.
    { destruct (running_linux p); [|reflexivity]. apply text_eqb_neq. intros ->. apply Hty. right. left. cbn [In]. tauto. }
    assert (text_eqb (f_name f) (T "rt_sigprocmask") && text_eqb ty (T "sigset_t") = false) as ->; [|reflexivity].
    destruct (text_eqb (f_name f) (T "rt_sigprocmask")); [|reflexivity]. apply text_eqb_neq. intros ->. apply Hty. right. right. now left.
  Qed.
End Shown.

(** ** Which decoders are reached *)
Definition unreached : list (text * text) := [(T "lseek", T "origin")].
Definition reach_check (pairs : list (text * text)) : bool :=
  forallb (fun cn => existsb (fun u => text_eqb (fst cn) (fst u) && text_eqb (snd cn) (snd u)) unreached ||
    existsb (fun e => text_eqb (fst cn) (fst e) && existsb (fun tn => text_eqb (snd cn) (snd tn) && negb (text_eqb (fst tn) [])) (snd (snd e))) SYSCALL_PROTOTYPES) pairs.
Lemma reach_check_spec pairs : reach_check pairs = true -> forall call name, In (call, name) pairs -> ~ In (call, name) unreached ->
  exists restype formats type, has_prototype call restype formats /\ In (type, name) formats /\ type <> [].
Proof.
  unfold reach_check. rewrite forallb_forall. intros H call name Hin Hu. specialize (H _ Hin). cbn [fst snd] in H. apply orb_true_iff in H as [H|H].
  - destruct Hu. apply existsb_exists in H as ([a b] & H1 & H2). cbn [fst snd] in H2. apply andb_true_iff in H2 as [H2 H3]. apply text_eqb_eq in H2, H3. now subst.
  - apply existsb_exists in H as ([c [restype formats]] & H1 & H2). cbn [fst snd] in H2. apply andb_true_iff in H2 as [H2 H3]. apply text_eqb_eq in H2. subst c.
    apply existsb_exists in H3 as ([type n] & H3 & H4). cbn [fst snd] in H4. apply andb_true_iff in H4 as [H4 H5]. apply text_eqb_eq in H4. subst n.
    exists restype, formats, type. split; [exact H1|]. split; [exact H3|]. apply negb_true_iff in H5. apply text_eqb_neq in H5. exact H5.
Qed.
Definition dict_pairs (p : platform) : list (text * text) := flat_map (fun e => map (fun a => (fst e, fst a)) (snd e)) (SYSCALL_ARG_DICT p).
Lemma decoders_reached p call name : (exists value t, named p call name value t) \/ In (call, name) decoded_pairs -> ~ In (call, name) unreached ->
  exists restype formats type, has_prototype call restype formats /\ In (type, name) formats /\ type <> [].
Proof.
  intros H Hu. apply (reach_check_spec (dict_pairs p ++ decoded_pairs)); [| |exact Hu].
  - unfold dict_pairs, SYSCALL_ARG_DICT. destruct (p_os p); vm_compute; reflexivity.
  - apply in_app_iff. destruct H as [(value & t & args & l & H1 & H2 & _)|H]; [left|now right]. unfold dict_pairs. apply in_flat_map. exists (call, args).
    split; [exact H1|]. cbn [fst snd]. change (call, name) with ((fun a : text * list (Z * text) => (call, fst a)) (name, l)). now apply in_map.
Qed.
Lemma decoders_reached_but p call name : (exists value t, named p call name value t) \/ In (call, name) decoded_pairs -> (call, name) <> (T "lseek", T "origin") ->
  exists restype formats type, has_prototype call restype formats /\ In (type, name) formats /\ type <> [].
Proof. intros H Hn. apply (decoders_reached p call name H). intros [E|[]]. now apply Hn. Qed.
Lemma socket_type_text p n t : In (n, t) SOCKET_TYPE ->
  formatSocketType (SOCK_CLOEXEC p) n = t /\ (forall c, cloexec_bit (p_os p) = Some c -> formatSocketType (SOCK_CLOEXEC p) (n + c) = t ++ T "|SOCK_CLOEXEC").
Proof.
  intros H. unfold SOCKET_TYPE in H. cbn [In] in H. unfold SOCK_CLOEXEC, cloexec_bit.
  repeat (destruct H as [H|H]; [injection H as <- <-; destruct (p_os p); (split; [vm_compute; reflexivity|intros c [= <-]; vm_compute; reflexivity])|]). destruct H.
Qed.
Lemma lseek_witness : exists type restype formats, has_prototype (T "lseek") restype formats /\ In (type, T "whence") formats /\
  named linux_x86_64 (T "lseek") (T "origin") 2 (T "SEEK_END") /\
  forall ns repr_fs opts v args restype', getText linux_x86_64 ns repr_fs opts v (Func (T "lseek") restype' args) (Arg 2 (Some type) (Some (T "whence")) None) = Ok (T "2").
Proof.
  exists (T "unsigned int"), (T "long"), [(T "unsigned int", T "fd"); (T "off_t", T "offset"); (T "unsigned int", T "whence")].
  split; [apply (dget_In text_eqb text_eqb_iff); vm_compute; reflexivity|]. split; [cbn [In]; tauto|]. split; [apply named_looked; vm_compute; reflexivity|].
  intros. apply (integer_shown_plain linux_x86_64 ns repr_fs opts v _ (Arg 2 (Some (T "unsigned int")) (Some (T "whence")) None) (T "unsigned int") false 32).
  - now left.
  - exists (T "whence"). split; [reflexivity|]. split; [discriminate|]. split; [discriminate|]. split; [unfold decoded_pairs; cbn [In f_name]; intuition discriminate|].
    intros t Hn. apply named_looked in Hn. discriminate Hn.
  - split; [discriminate|]. split; [reflexivity|now left].
  - reflexivity.
  - now left.
Qed.
Lemma kill_witness : exists formats, has_prototype (T "kill") (T "long") formats /\ In (T "int", T "sig") formats /\
  forall ns repr_fs opts v args restype, getText linux_x86_64 ns repr_fs opts v (Func (T "kill") restype args) (Arg 9 (Some (T "int")) (Some (T "sig")) None) = Ok (T "9").
Proof.
  exists [(T "int", T "pid"); (T "int", T "sig")].
  split; [apply (dget_In text_eqb text_eqb_iff); vm_compute; reflexivity|]. split; [cbn [In]; tauto|].
  intros. refine (proj2 (integer_shown_plain linux_x86_64 ns repr_fs opts v _ (Arg 9 (Some (T "int")) (Some (T "sig")) None) (T "int") true 32 _ _ _ _) _ 9 _).
  - now left.
  - exists (T "sig"). split; [reflexivity|]. split; [discriminate|]. split; [discriminate|]. split; [unfold decoded_pairs; cbn [In f_name]; intuition discriminate|].
    intros t Hn. apply named_looked in Hn. discriminate Hn.
  - split; [discriminate|]. split; [reflexivity|now left].
  - reflexivity.
  - unfold raw_type. cbn [In]. intros H. repeat (destruct H as [H|H]; [discriminate H|]). destruct H.
  - split; [cbn [a_value]; lia|]. exists 0. reflexivity.
Qed.
Lemma nonblock_witness : exists n, n = 1 + 2 ^ 11 /\ In (1, T "SOCK_STREAM") SOCKET_TYPE /\ formatSocketType (SOCK_CLOEXEC linux_x86_64) n = T "2049".
Proof. exists 2049. split; [reflexivity|]. split; [now left|vm_compute; reflexivity]. Qed.
