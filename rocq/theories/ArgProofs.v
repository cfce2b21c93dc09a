From Coq Require Import ZArith List Ascii String Bool Lia.
From Verif Require Import PyBase PyFacts Platform IntModel IntSpec IntProofs SigModel TabModel TabSpec TabProofs ArgModel ArgSpec.
From Verif Require Import SigProofs MemProofs.
Import ListNotations.
Open Scope Z_scope.

(** ** C37 *)
Lemma drop_empty_spec l : without_trailing_empty l (drop_empty l).
Proof.
  induction l as [|x l [[n Hn] Hk]]; [split; [exists 0%nat; reflexivity|now left]|].
  cbn [drop_empty]. destruct (drop_empty l) as [|y k] eqn:E.
  - destruct x as [|c x].
    + split; [|now left]. exists (S n). cbn. now rewrite Hn.
    + split; [exists n; cbn; now rewrite Hn|]. right. exists [], (c :: x). split; [reflexivity|discriminate].
  - destruct Hk as [Hk|(f & z & Hk & Hz)]; [discriminate|].
    split; [exists n; cbn; now rewrite Hn|]. right. exists (x :: f), z. split; [now rewrite Hk|exact Hz].
Qed.
Lemma trailing_unique l k1 k2 : without_trailing_empty l k1 -> without_trailing_empty l k2 -> k1 = k2.
Proof.
  assert (forall k n, (k = [] \/ exists front x, k = front ++ [x] /\ x <> []) -> without_trailing_empty (k ++ repeat [] n) k -> drop_empty (k ++ repeat ([] : text) n) = k) as H.
  { intros k n Hk _. destruct Hk as [->|(f & x & -> & Hx)].
    - cbn. induction n as [|n IH]; cbn; [reflexivity|now rewrite IH].
    - induction f as [|y f IH]; cbn [app drop_empty].
      + assert (drop_empty (repeat ([] : text) n) = []) as -> by (induction n as [|n IH]; cbn; [reflexivity|now rewrite IH]). destruct x; [congruence|reflexivity].
      + rewrite IH. destruct (f ++ [x]) eqn:E; [destruct f; discriminate|reflexivity]. }
  intros H1 H2. pose proof H1 as [[n1 E1] K1]. pose proof H2 as [[n2 E2] K2]. 
  rewrite E1 in H1. rewrite E2 in H2. apply (H _ _ K1) in H1. apply (H _ _ K2) in H2. rewrite <- E1 in H1. rewrite <- E2 in H2. congruence.
Qed.
Lemma format_call_spec opts f l kept : without_trailing_empty l kept ->
  format_call opts f l = (if truthy (f_restype f) && o_write_types opts then get (f_restype f) ++ T " " else []) ++
    f_name f ++ T "(" ++ join (T ", ") kept ++ T ")".
Proof.
  intros H. unfold format_call. rewrite (trailing_unique _ _ _ (drop_empty_spec l) H).
  destruct (truthy (f_restype f) && o_write_types opts); [rewrite <- !app_assoc|]; reflexivity.
Qed.
Lemma truthy_spec o : (exists t, non_empty o t /\ truthy o = true /\ get o = t) \/ (absent o /\ truthy o = false).
Proof.
  destruct o as [[|c t]|]; [right; split; [now right|reflexivity]|left|right; split; [now left|reflexivity]].
  exists (c :: t). split; [split; [reflexivity|discriminate]|auto].
Qed.
Lemma format_with_spec opts a t :
  (forall nm ty, non_empty (a_name a) nm -> non_empty (a_type a) ty -> o_write_argname opts = true -> o_write_types opts = true ->
     format_with opts a t = ty ++ T " " ++ nm ++ T "=" ++ t) /\
  (forall nm, non_empty (a_name a) nm -> o_write_argname opts = true -> absent (a_type a) \/ o_write_types opts = false ->
     format_with opts a t = nm ++ T "=" ++ t) /\
  (forall ty, non_empty (a_type a) ty -> o_write_types opts = true -> absent (a_name a) \/ o_write_argname opts = false ->
     format_with opts a t = T "(" ++ ty ++ T ")" ++ t) /\
  (absent (a_name a) \/ o_write_argname opts = false -> absent (a_type a) \/ o_write_types opts = false ->
     format_with opts a t = t).
Proof.
  unfold format_with.
  assert (forall o x, non_empty o x -> truthy o = true /\ get o = x) as H1.
  { intros o x [-> Hx]. destruct x; [congruence|auto]. }
  assert (forall o, absent o -> truthy o = false) as H2 by (intros o [->| ->]; reflexivity).
  repeat split.
  - intros nm ty Hn Ht -> ->. apply H1 in Hn as [-> ->]. apply H1 in Ht as [-> ->]. reflexivity.
  - intros nm Hn -> Ht. apply H1 in Hn as [-> ->]. cbn [andb]. destruct Ht as [Ht| ->]; [rewrite (H2 _ Ht), andb_false_r|]; reflexivity.
  - intros ty Ht -> Hn. apply H1 in Ht as [-> ->]. cbn [andb]. destruct Hn as [Hn| ->]; [rewrite (H2 _ Hn), andb_false_r|]; reflexivity.
  - intros [Hn|Hn] [Ht|Ht]; rewrite ?Hn, ?Ht, ?(H2 _ Hn), ?(H2 _ Ht), ?andb_false_r; reflexivity.
Qed.
Lemma mapM_Forall2 {A B} (f : A -> res B) l r : mapM f l = Ok r <-> Forall2 (fun a b => f a = Ok b) l r.
Proof.
  revert r. induction l as [|a l IH]; intros r; cbn [mapM].
  - split; [intros [= <-]; constructor|inversion 1; reflexivity].
  - destruct (f a) as [b|e] eqn:E; cbn [bind].
    + destruct (mapM f l) as [bs|e]; cbn [bind].
      * split; [intros [= <-]; constructor; [exact E|now apply IH]|]. inversion 1; subst. apply IH in H4. injection H4 as <-. rewrite E in H2. now injection H2 as <-.
      * split; [discriminate|]. inversion 1; subst. apply IH in H4. discriminate.
    + split; [discriminate|]. inversion 1; subst. congruence.
Qed.
Lemma mapM_Err {A B} (f : A -> res B) l e : mapM f l = Err e -> exists a, In a l /\ f a = Err e.
Proof.
  induction l as [|a l IH]; cbn [mapM]; [discriminate|]. destruct (f a) as [b|e'] eqn:E; cbn [bind].
  - destruct (mapM f l); cbn [bind]; [discriminate|]. intros [= <-]. destruct IH as (x & H1 & H2); [reflexivity|]. exists x. split; [now right|exact H2].
  - intros [= <-]. exists a. split; [now left|exact E].
Qed.
Lemma map_combine {A B C} (f : A -> B -> C) : forall l1 l2, map (fun x => f (fst x) (snd x)) (combine l1 l2) =
  (fix go a b := match a, b with x :: a, y :: b => f x y :: go a b | _, _ => [] end) l1 l2.
Proof. induction l1 as [|a l1 IH]; intros [|b l2]; cbn; [reflexivity..|]. now rewrite IH. Qed.

Section Facts.
  Context (p : platform) (ns : namespace) (repr_fs : list byte -> text) (opts : options) (v : view).
  Notation getText := (getText p ns repr_fs opts v).
  Notation createText := (createText p ns repr_fs opts v).

  Lemma getText_err f a e : getText f a = Err e -> is_exception e = false.
  Proof.
    unfold ArgModel.getText, getText_. destruct (truthy (a_text a)); [discriminate|]. destruct (createText f a) as [[t|]|e']; try discriminate.
    destruct (is_exception e') eqn:E; [discriminate|]. intros [= <-]. exact E.
  Qed.
  Lemma format_spec f f' t : format p ns repr_fs opts v f = Ok (f', t) ->
    exists texts kept, Forall2 (fun a x => getText f a = Ok x) (f_args f) texts /\
      without_trailing_empty (map (fun ax => format_with opts (fst ax) (snd ax)) (combine (f_args f) texts)) kept /\
      t = (if truthy (f_restype f) && o_write_types opts then get (f_restype f) ++ T " " else []) ++
          f_name f ++ T "(" ++ join (T ", ") kept ++ T ")" /\
      f_name f' = f_name f /\ f_restype f' = f_restype f /\
      f_args f' = map (fun ax => Arg (a_value (fst ax)) (a_type (fst ax)) (a_name (fst ax)) (Some (snd ax))) (combine (f_args f) texts).
  Proof.
    unfold format, format_args. destruct (mapM (getText f) (f_args f)) as [texts|e] eqn:E; cbn [bind]; [|discriminate].
    intros [= <- <-]. apply mapM_Forall2 in E. eexists texts, _. split; [exact E|]. split; [apply drop_empty_spec|].
    split; [apply format_call_spec, drop_empty_spec|]. repeat split.
  Qed.
  Lemma format_fails f e : format p ns repr_fs opts v f = Err e -> is_exception e = false.
  Proof.
    unfold format, format_args. destruct (mapM (getText f) (f_args f)) as [texts|e'] eqn:E; cbn [bind]; [discriminate|].
    intros [= <-]. apply mapM_Err in E as (a & _ & Ha). now apply getText_err in Ha.
  Qed.
  (** the text is computed once *)
  Lemma getText_cached f a t : non_empty (a_text a) t -> getText f a = Ok t.
  Proof. intros [E Ht]. unfold ArgModel.getText, getText_. rewrite E. destruct t; [congruence|]. reflexivity. Qed.
  Lemma getText_fallback f a : absent (a_text a) ->
    (forall t, createText f a = Ok (Some t) -> getText f a = Ok t) /\
    (forall e, createText f a = Err e -> is_exception e = true -> getText f a = Ok (str_int (a_value a))) /\
    (forall ty, createText f a = Ok None -> non_empty (a_type a) (ty ++ T "*") -> getText f a = Ok (formatAddress p (a_value a))).
  Proof.
    intros Ha. unfold ArgModel.getText, getText_. replace (truthy (a_text a)) with false by (destruct Ha as [->| ->]; reflexivity).
    split; [intros t ->; reflexivity|]. split; [intros e -> ->; reflexivity|]. intros ty -> [Ht Hn]. rewrite Ht.
    assert (truthy (Some (ty ++ T "*")) = true) as -> by (destruct ty; reflexivity). cbn [get].
    replace (ends_with (T "*") (ty ++ T "*")) with true; [reflexivity|]. symmetry. apply ends_with_spec. exists ty. reflexivity.
  Qed.

  (** ** C38 *)
  Definition int_types := [T "int"; T "pid_t"; T "clockid_t"; T "long"; T "unsigned int"; T "u32"; T "uid_t"; T "gid_t"; T "socklen_t"; T "size_t"; T "unsigned long"].
  Lemma int_type_text f value ty s b : c_int_type p ty = Some (s, b) ->
    createText_type p ns opts v f value ty =
      Ok (Some (str_int (if existsb (text_eqb ty) [T "unsigned int"; T "unsigned long"; T "u32"] then value else uint2int32 value))).
  Proof.
    intros H. unfold c_int_type in H. apply (dget_In text_eqb text_eqb_iff) in H. cbn [In] in H.
    repeat (destruct H as [H|H]; [injection H as <- _ _; reflexivity|]). destruct H.
  Qed.
  Lemma in_check x l : existsb (text_eqb x) l = true -> In x l.
  Proof. intros H. apply existsb_exists in H as (y & H1 & H2). apply text_eqb_eq in H2. now subst y. Qed.
  Lemma incl_check l l' : forallb (fun x => existsb (text_eqb x) l') l = true -> incl l l'.
  Proof. intros H x Hx. rewrite forallb_forall in H. apply in_check, H, Hx. Qed.
  Lemma dict_treated q : forallb (fun x => existsb (text_eqb x) treated_calls) (map fst (SYSCALL_ARG_DICT q)) = true.
  Proof. unfold SYSCALL_ARG_DICT. destruct (p_os q); vm_compute; reflexivity. Qed.
  Lemma ordinary_text f a ty nm s b : a_type a = Some ty -> a_name a = Some nm -> ordinary (f_name f) nm -> c_int_type p ty = Some (s, b) ->
    createText f a = createText_type p ns opts v f (a_value a) ty.
  Proof.
    intros Ht Hn (Hne & Hs & Ho) Hi. unfold ArgModel.createText, createText_. rewrite Ht, Hn.
    assert (ty <> []) as Hty.
    { intros ->. discriminate Hi. }
    destruct ty as [|c0 ty0] eqn:Ety; [congruence|]. rewrite <- Ety in *. clear Hty.
    destruct nm as [|c1 nm0] eqn:Enm; [congruence|]. rewrite <- Enm in *.
    assert (truthy (Some ty) = true) as -> by (rewrite Ety; reflexivity). assert (truthy (Some nm) = true) as -> by (rewrite Enm; reflexivity). cbn [negb orb get].
    assert (forall x, In x treated_calls -> text_eqb (f_name f) x = false) as Hx.
    { intros x Hx. apply text_eqb_neq. intros E. apply Ho. rewrite E. exact Hx. }
    assert (dget text_eqb (f_name f) (SYSCALL_ARG_DICT p) = None) as ->.
    { apply (dget_None text_eqb text_eqb_iff). intros Hin. apply Ho.
      exact (incl_check _ treated_calls (dict_treated p) _ Hin). }
    unfold argument_callback. rewrite !(fun x H => Hx x (in_check x _ H)) by reflexivity. cbn [andb bind].
    replace (text_eqb nm (T "signum")) with false by (symmetry; apply text_eqb_neq; exact Hs).
    assert (starts_with (T "const ") ty = false /\ text_eqb ty (T "char *") = false) as [-> ->].
    { unfold c_int_type in Hi. apply (dget_In text_eqb text_eqb_iff) in Hi. cbn [In] in Hi. clear Ety.
      repeat (destruct Hi as [Hi|Hi]; [injection Hi as <- _ _; split; reflexivity|]). destruct Hi. }
    rewrite andb_false_r. reflexivity.
  Qed.
  Lemma ordinary_getText f a ty nm s b : absent (a_text a) -> a_type a = Some ty -> a_name a = Some nm -> ordinary (f_name f) nm -> c_int_type p ty = Some (s, b) ->
    getText f a = Ok (str_int (if existsb (text_eqb ty) [T "unsigned int"; T "unsigned long"; T "u32"] then a_value a else uint2int32 (a_value a))).
  Proof.
    intros Hx Ht Hn Ho Hi. destruct (getText_fallback f a Hx) as [H _]. apply H. rewrite (ordinary_text f a ty nm s b Ht Hn Ho Hi). now apply (int_type_text f _ ty s b).
  Qed.

  Lemma int_types_known ty s b : c_int_type p ty = Some (s, b) -> 32 <= b /\ (32 | b).
  Proof.
    intros H. unfold c_int_type in H. apply (dget_In text_eqb text_eqb_iff) in H.
    apply (in_map (fun x => snd (snd x))) in H. cbn [map snd] in H.
    assert (b = 32 \/ b = 8 * word_size p) as Hb by (cbn [In] in H; intuition).
    unfold word_size in Hb. destruct (p_64bits p), Hb as [-> | ->]; (split; [lia|first [exists 1; reflexivity|exists 2; reflexivity]]).
  Qed.
  Lemma integer_shown f a ty nm n : absent (a_text a) -> a_type a = Some ty -> a_name a = Some nm -> ordinary (f_name f) nm -> receives p ty (a_value a) n ->
    (raw_type ty -> (getText f a = Ok (str_int n) <-> a_value a = n)) /\
    (~ raw_type ty -> (getText f a = Ok (str_int n) <-> - 2 ^ 31 <= n < 2 ^ 31)).
  Proof.
    intros Hx Ht Hn Ho (s & b & Hi & [k Hk] & Hr). rewrite (ordinary_getText f a ty nm s b Hx Ht Hn Ho Hi).
    assert (existsb (text_eqb ty) [T "unsigned int"; T "unsigned long"; T "u32"] = true <-> raw_type ty) as He.
    { rewrite existsb_exists. unfold raw_type. split.
      - intros (x & H1 & H2). apply text_eqb_eq in H2. now subst x.
      - intros H. exists ty. split; [exact H|]. now apply text_eqb_eq. }
    split; intros Hraw.
    - apply He in Hraw. rewrite Hraw. split; [|now intros ->]. intros [= E]. now apply str_int_inj in E.
    - destruct (existsb _ _); [exfalso; now apply Hraw, He|].
      pose proof (uint2int32_spec (a_value a)) as H32. destruct (int_types_known ty s b Hi) as [Hb [m Hm]].
      assert (2 ^ b = 2 ^ (b - 32) * 2 ^ 32) as Hp by (rewrite <- Z.pow_add_r by lia; f_equal; lia).
      split.
      + intros [= E]. apply str_int_inj in E. rewrite E in H32. destruct H32 as [H32 _]. exact H32.
      + intros Hn'. do 2 f_equal. apply (signed_unique 32 (a_value a)); [lia|exact H32|]. split; [exact Hn'|].
        exists (k * 2 ^ (b - 32)). rewrite Hk, Hp. ring.
  Qed.

  (** ** C39 *)
  Notation readCString := (readCString p repr_fs opts v).
  Notation loop := (readCStringArray_loop p repr_fs opts v).
  Notation null_text := (null_text opts).
  Lemma readCString_null : readCString 0 = Ok null_text.
  Proof. unfold ArgModel.readCString, formatPointer, ArgSpec.null_text. cbn [Z.eqb negb]. destruct (o_write_address opts); reflexivity. Qed.
  Lemma words_cons address w l : words_at p v address (w :: l) <-> v_word v address = Ok w /\ words_at p v (address + word_size p) l.
  Proof.
    split.
    - intros H. split; [rewrite <- (H 0%nat w eq_refl); f_equal; lia|]. intros i x Hi. rewrite <- (H (S i) x Hi). f_equal. lia.
    - intros [H1 H2] [|i] x Hi; [injection Hi as <-; rewrite <- H1; f_equal; lia|]. rewrite <- (H2 i x Hi). f_equal. lia.
  Qed.
  Lemma loop_terminated ws : forall ss fuel address max acc, Forall (fun w => w <> 0) ws -> Forall2 (fun w s => readCString w = Ok s) ws ss ->
    words_at p v address (ws ++ [0]) -> zlen acc + zlen ws < Z.max 1 max -> (List.length ws < fuel)%nat ->
    loop fuel address max acc = Ok (acc ++ ss ++ [null_text]).
  Proof.
    induction ws as [|w ws IH]; intros ss fuel address max acc Hnz Hss Hw Hlen Hf; destruct fuel as [|fuel]; cbn [List.length] in *; try lia;
      cbn [readCStringArray_loop]; inversion Hss; subst; cbn [app] in Hw; apply words_cons in Hw as [Hw1 Hw2]; rewrite Hw1; cbn [bind].
    - rewrite readCString_null. cbn [bind Z.eqb]. reflexivity.
    - rewrite H1. cbn [bind]. inversion Hnz; subst. replace (w =? 0) with false by (symmetry; now apply Z.eqb_neq).
      rewrite zlen_cons in Hlen. replace (max <=? zlen (acc ++ [y])) with false.
      + rewrite (IH l'); auto; try lia; [|rewrite zlen_app, zlen_cons, zlen_nil; lia]. now rewrite <- !app_assoc.
      + symmetry. apply Z.leb_gt. rewrite zlen_app, zlen_cons, zlen_nil. pose proof (zlen_nonneg ws). pose proof (zlen_nonneg acc). lia.
  Qed.
  Lemma loop_many ws : forall ss fuel address max acc, ws <> [] -> Forall (fun w => w <> 0) ws -> Forall2 (fun w s => readCString w = Ok s) ws ss ->
    words_at p v address ws -> zlen acc + zlen ws = Z.max 1 max -> (List.length ws <= fuel)%nat ->
    loop fuel address max acc = Ok (acc ++ ss ++ [more_text max]).
  Proof.
    induction ws as [|w ws IH]; intros ss fuel address max acc Hne Hnz Hss Hw Hlen Hf; [congruence|]. destruct fuel as [|fuel]; cbn [List.length] in *; [lia|].
    cbn [readCStringArray_loop]; inversion Hss; subst; apply words_cons in Hw as [Hw1 Hw2]; rewrite Hw1; cbn [bind].
    rewrite H1. cbn [bind]. inversion Hnz; subst. replace (w =? 0) with false by (symmetry; now apply Z.eqb_neq).
    rewrite zlen_cons in Hlen. destruct ws as [|w2 ws].
    - rewrite zlen_nil in Hlen. replace (max <=? zlen (acc ++ [y])) with true by (symmetry; apply Z.leb_le; rewrite zlen_app, zlen_cons, zlen_nil; lia).
      inversion H3; subst. now rewrite <- app_assoc.
    - replace (max <=? zlen (acc ++ [y])) with false.
      + rewrite (IH l'); auto; try lia; [now rewrite <- !app_assoc|discriminate|rewrite zlen_app, zlen_cons, zlen_nil; lia].
      + symmetry. apply Z.leb_gt. rewrite zlen_app, zlen_cons, zlen_nil. rewrite zlen_cons in Hlen. pose proof (zlen_nonneg ws). pose proof (zlen_nonneg acc). lia.
  Qed.
  Lemma array_terminated address ws ss : address <> 0 -> Forall (fun w => w <> 0) ws -> Forall2 (fun w s => readCString w = Ok s) ws ss ->
    words_at p v address (ws ++ [0]) -> zlen ws < Z.max 1 (o_max_array_count opts) ->
    readCStringArray p repr_fs opts v address = Ok (formatPointer p opts (T "<(" ++ join (T ", ") (ss ++ [null_text]) ++ T ")>") address).
  Proof.
    intros Ha Hnz Hss Hw Hlen. unfold readCStringArray. replace (address =? 0) with false by (symmetry; now apply Z.eqb_neq).
    rewrite (loop_terminated ws ss) by (auto; unfold zlen in *; cbn [List.length] in *; lia). reflexivity.
  Qed.
  Lemma array_many address ws ss : address <> 0 -> Forall (fun w => w <> 0) ws -> Forall2 (fun w s => readCString w = Ok s) ws ss ->
    words_at p v address ws -> zlen ws = Z.max 1 (o_max_array_count opts) ->
    readCStringArray p repr_fs opts v address = Ok (formatPointer p opts (T "<(" ++ join (T ", ") (ss ++ [more_text (o_max_array_count opts)]) ++ T ")>") address).
  Proof.
    intros Ha Hnz Hss Hw Hlen. unfold readCStringArray. replace (address =? 0) with false by (symmetry; now apply Z.eqb_neq).
    rewrite (loop_many ws ss); auto.
    - intros ->. rewrite zlen_nil in Hlen. lia.
    - unfold zlen in *. lia.
  Qed.

  (** ** C40 *)
  Lemma socket_args_spec formats : forall address ws, words_at p v address ws -> List.length ws = List.length formats ->
    socket_args p v formats address = Ok (map (fun fw => Arg (snd fw) (Some (fst (fst fw))) (Some (snd (fst fw))) None) (combine formats ws)).
  Proof.
    induction formats as [|[ty nm] formats IH]; intros address [|w ws] Hw Hlen; try discriminate; [reflexivity|].
    apply words_cons in Hw as [H1 H2]. cbn [socket_args]. rewrite H1. cbn [bind]. rewrite (IH _ ws H2) by (cbn in Hlen; lia). reflexivity.
  Qed.
  Lemma socket_args_length formats : forall address l, socket_args p v formats address = Ok l -> words_at p v address (map a_value l) /\ List.length l = List.length formats.
  Proof.
    induction formats as [|[ty nm] formats IH]; intros address l; cbn [socket_args].
    - intros [= <-]. split; [|reflexivity]. intros [|i] w; discriminate.
    - destruct (v_word v address) as [w|e] eqn:E; cbn [bind]; [|discriminate].
      destruct (socket_args p v formats (address + word_size p)) as [l'|e] eqn:E2; cbn [bind]; [|discriminate]. intros [= <-].
      apply IH in E2 as [H1 H2]. split; [|cbn; now rewrite H2]. cbn [map a_value]. apply words_cons. auto.
  Qed.
  Lemma setup_spec name restype formats address ws : has_prototype name restype formats -> words_at p v address ws -> List.length ws = List.length formats ->
    setupSocketCall p v name address =
      Ok (Func name (Some restype) (map (fun fw => Arg (snd fw) (Some (fst (fst fw))) (Some (snd (fst fw))) None) (combine formats ws))).
  Proof.
    intros Hp Hw Hl. unfold setupSocketCall. rewrite (dget_has_prototype _ _ _ Hp). rewrite (socket_args_spec formats address ws Hw Hl). reflexivity.
  Qed.
  Lemma setup_sound name address f : setupSocketCall p v name address = Ok f ->
    exists restype formats, has_prototype name restype formats /\ f_name f = name /\ f_restype f = Some restype /\
      words_at p v address (map a_value (f_args f)) /\ List.length (f_args f) = List.length formats.
  Proof.
    unfold setupSocketCall. destruct (dget text_eqb name SYSCALL_PROTOTYPES) as [[r fo]|] eqn:E; [|discriminate].
    destruct (socket_args p v fo address) as [l|e] eqn:E2; cbn [bind]; [|discriminate]. intros [= <-]. exists r, fo.
    split; [now apply has_prototype_dget|]. apply socket_args_length in E2 as [H1 H2]. auto.
  Qed.

  (** ** C61 *)
  Lemma set_indices_In bits : forall n i, In i (set_indices n bits) <-> n <= i /\ nth_error bits (Z.to_nat (i - n)) = Some true.
  Proof.
    induction bits as [|b bits IH]; intros n i; cbn [set_indices].
    - split; [intros []|]. intros [_ H]. destruct (Z.to_nat (i - n)); discriminate.
    - assert (In i (set_indices (n + 1) bits) <-> n < i /\ nth_error (b :: bits) (Z.to_nat (i - n)) = Some true) as Hr.
      { rewrite IH. split; intros [H1 H2]; (split; [lia|]); replace (Z.to_nat (i - n)) with (S (Z.to_nat (i - (n + 1)))) in * by lia; exact H2. }
      destruct b; [cbn [In]|]; rewrite Hr.
      + split; [intros [<-|H]; [replace (n - n) with 0 by lia; split; [lia|reflexivity]|split; [lia|apply H]]|]. intros [H1 H2].
        destruct (Z.eq_dec n i); [now left|right]. split; [lia|exact H2].
      + split; [intros [H1 H2]; split; [lia|exact H2]|]. intros [H1 H2]. split; [|exact H2]. destruct (Z.eq_dec n i); [|lia]. subst. replace (Z.to_nat (i - i)) with 0%nat in H2 by lia. discriminate.
  Qed.
  Lemma set_indices_sorted bits : forall n, Forall (fun i => n <= i) (set_indices n bits) /\ increasing (set_indices n bits).
  Proof.
    induction bits as [|b bits IH]; intros n; cbn [set_indices].
    - split; [constructor|]. intros a b [|i]; discriminate.
    - destruct (IH (n + 1)) as [H1 H2]. assert (Forall (fun i => n <= i) (set_indices (n + 1) bits)) as H3 by (eapply Forall_impl; [|exact H1]; cbn; intros; lia).
      destruct b; [|split; assumption]. split; [constructor; [lia|exact H3]|].
      intros a b [|i] [|j] Ha Hb Hij; cbn [nth_error] in *; try lia; [|apply (H2 _ _ i j Ha Hb); lia].
      injection Ha as <-. apply nth_error_In in Hb. rewrite Forall_forall in H1. apply H1 in Hb. lia.
  Qed.
  Lemma iterBits_nth bytes : forall i, (i < 8 * List.length bytes)%nat ->
    nth_error (iterBits bytes) i = Some (Z.testbit (b2z (nth (i / 8) bytes "000"%char)) (Z.of_nat (i mod 8))).
  Proof.
    induction bytes as [|b bytes IH]; intros i Hi; [cbn in Hi; lia|]. unfold iterBits. cbn [map List.concat].
    assert (List.length (byte_bits b) = 8%nat) as Hl by reflexivity.
    assert (forall k, 0 <= k -> (Z.land (Z.shiftr (b2z b) k) 1 =? 1) = Z.testbit (b2z b) k) as Hb.
    { intros k Hk. change 1 with (Z.ones 1) at 1. rewrite Z.land_ones by lia. rewrite <- Z.bit0_mod. rewrite Z.shiftr_spec by lia. rewrite Z.add_0_l. now destruct (Z.testbit (b2z b) k). }
    destruct (Nat.lt_ge_cases i 8) as [H8|H8].
    - rewrite nth_error_app1 by lia. rewrite Nat.div_small, Nat.mod_small by lia. cbn [nth].
      unfold byte_bits. destruct i as [|[|[|[|[|[|[|[|i]]]]]]]]; [..|lia]; cbn [zrange seq map nth_error]; rewrite Hb by lia; reflexivity.
    - rewrite nth_error_app2 by lia. rewrite Hl. cbn [List.length] in Hi. fold (iterBits bytes). rewrite IH by lia. replace i with ((i - 8) + 1 * 8)%nat at 3 4 by lia.
      rewrite Nat.div_add, Nat.mod_add by lia. replace ((i - 8) / 8 + 1)%nat with (S ((i - 8) / 8)) by lia. reflexivity.
  Qed.
  Lemma iterBits_length bytes : List.length (iterBits bytes) = (8 * List.length bytes)%nat.
  Proof. induction bytes as [|b bytes IH]; [reflexivity|]. unfold iterBits in *. cbn [map List.concat]. rewrite app_length, IH. cbn [List.length]. change (List.length (byte_bits b)) with 8%nat. lia. Qed.
  Definition listed (bytes : list byte) : list Z := set_indices 0 (iterBits bytes).
  Lemma listed_In bytes i : In i (listed bytes) <-> 0 <= i < 8 * zlen bytes /\ Z.testbit (b2z (nth (Z.to_nat (i / 8)) bytes "000"%char)) (i mod 8) = true.
  Proof.
    unfold listed. rewrite set_indices_In. rewrite Z.sub_0_r.
    assert (forall j, 0 <= j < 8 * zlen bytes -> nth_error (iterBits bytes) (Z.to_nat j) = Some (Z.testbit (b2z (nth (Z.to_nat (j / 8)) bytes "000"%char)) (j mod 8))) as H.
    { intros j Hj. unfold zlen in Hj. rewrite iterBits_nth by lia. do 2 f_equal.
      - do 2 f_equal. rewrite Z2Nat.inj_div by lia. reflexivity.
      - rewrite Nat2Z.inj_mod, Z2Nat.id by lia. reflexivity. }
    split.
    - intros [H1 H2]. assert (0 <= i < 8 * zlen bytes) as Hi.
      { split; [exact H1|]. assert (nth_error (iterBits bytes) (Z.to_nat i) <> None) as Hn by congruence. apply nth_error_Some in Hn. rewrite iterBits_length in Hn. unfold zlen. lia. }
      split; [exact Hi|]. rewrite (H i Hi) in H2. congruence.
    - intros [H1 H2]. split; [lia|]. rewrite (H i H1). now rewrite H2.
  Qed.
  Lemma le_testbit s : forall i, 0 <= i -> Z.testbit (le_value s) i = if i <? 8 * zlen s then Z.testbit (b2z (nth (Z.to_nat (i / 8)) s "000"%char)) (i mod 8) else false.
  Proof.
    induction s as [|b s IH]; intros i Hi; cbn [le_value].
    - rewrite Z.bits_0. destruct (i <? 8 * zlen []) eqn:E; [|reflexivity]. unfold zlen in E. cbn in E. blia.
    - pose proof (b2z_range b) as Hb. rewrite zlen_cons. assert (Z.land (b2z b) (256 * le_value s) = 0) as Hand.
      { apply Z.bits_inj'. intros n Hn. rewrite Z.land_spec, Z.bits_0. change 256 with (2 ^ 8). rewrite (Z.mul_comm (2 ^ 8)). destruct (Z.lt_ge_cases n 8).
        - rewrite Z.mul_pow2_bits_low by lia. apply andb_false_r.
        - rewrite (Z.bits_above_log2 (b2z b)); [reflexivity|lia|]. destruct (Z.eq_dec (b2z b) 0) as [->|]; [cbn; lia|]. apply Z.log2_lt_pow2; [lia|]. apply Z.lt_le_trans with (2 ^ 8); [lia|]. apply Z.pow_le_mono_r; lia. }
      rewrite Z.add_nocarry_lxor by exact Hand. rewrite Z.lxor_lor by exact Hand. rewrite Z.lor_spec. change 256 with (2 ^ 8). rewrite (Z.mul_comm (2 ^ 8)).
      destruct (Z.lt_ge_cases i 8) as [H8|H8].
      + rewrite Z.mul_pow2_bits_low by lia. rewrite orb_false_r. rewrite Z.div_small, Z.mod_small by lia. cbn [Z.to_nat nth]. pose proof (zlen_nonneg s). replace (i <? 8 * (1 + zlen s)) with true by (symmetry; apply Z.ltb_lt; lia). reflexivity.
      + rewrite Z.mul_pow2_bits by lia. rewrite IH by lia.
        replace (Z.testbit (b2z b) i) with false.
        * cbn [orb]. assert (i / 8 = (i - 8) / 8 + 1) as -> by (replace i with ((i - 8) + 1 * 8) at 1 by lia; apply Z.div_add; lia).
          assert (i mod 8 = (i - 8) mod 8) as -> by (replace i with ((i - 8) + 1 * 8) at 1 by lia; apply Z.mod_add; lia).
          replace (i <? 8 * (1 + zlen s)) with (i - 8 <? 8 * zlen s) by (destruct (i - 8 <? 8 * zlen s) eqn:E1; symmetry; zb; lia).
          replace (Z.to_nat ((i - 8) / 8 + 1)) with (S (Z.to_nat ((i - 8) / 8))); [reflexivity|]. assert (0 <= (i - 8) / 8) by (apply Z.div_pos; lia). lia.
        * symmetry. destruct (Z.eq_dec (b2z b) 0) as [->|]; [apply Z.bits_0|]. apply Z.bits_above_log2; [lia|]. apply Z.log2_lt_pow2; [lia|]. apply Z.lt_le_trans with (2 ^ 8); [lia|]. apply Z.pow_le_mono_r; lia.
  Qed.
  Lemma nth_slice {A} (d : A) i n j (s : list A) : 0 <= i -> 0 <= j < n -> nth (Z.to_nat j) (slice i (i + n) s) d = nth (Z.to_nat (i + j)) s d.
  Proof.
    intros Hi Hj. unfold slice. replace (i + n - i) with n by lia.
    assert (forall k m (l : list A), (k < m)%nat -> nth k (firstn m l) d = nth k l d) as H1.
    { induction k as [|k IH]; intros [|m] [|x l] Hk; cbn; try lia; try reflexivity. apply IH. lia. }
    assert (forall k m (l : list A), nth k (skipn m l) d = nth (m + k) l d) as H2.
    { intros k m. revert k. induction m as [|m IH]; intros k [|x l]; cbn; try reflexivity; [now destruct k|apply IH]. }
    rewrite H1 by lia. rewrite H2. f_equal. lia.
  Qed.
  Lemma listed_bits bytes i : p_bigendian p = false -> (word_size p | zlen bytes) -> (In i (listed bytes) <-> 0 <= i < 8 * zlen bytes /\ bit_of p bytes i = true).
  Proof.
    intros Hle [k Hk]. rewrite listed_In. assert (word_size p = 4 \/ word_size p = 8) as HW by (unfold word_size; destruct (p_64bits p); auto).
    split; intros [Hi Hb]; (split; [exact Hi|]); revert Hb; unfold bit_of; rewrite Hle; unfold host_value; rewrite be_rev;
      set (W := word_size p) in *; (assert (0 < W) as HW0 by lia);
      pose proof (Z.mod_pos_bound i (8 * W) ltac:(lia)) as Hm; pose proof (Z.div_mod i (8 * W) ltac:(lia)) as Hd;
      (assert (0 <= i / (8 * W)) as Hq by (apply Z.div_pos; lia));
      (assert (i / (8 * W) * W + W <= zlen bytes) as Hend by (rewrite Hk in *; assert (i / (8 * W) < k) by (apply Z.div_lt_upper_bound; lia); nia));
      (assert (zlen (slice (i / (8 * W) * W) (i / (8 * W) * W + W) bytes) = W) as Hlen by (unfold slice; rewrite zlen_firstn, zlen_skipn; nia));
      rewrite le_testbit by lia; rewrite Hlen; (replace (i mod (8 * W) <? 8 * W) with true by (symmetry; apply Z.ltb_lt; lia));
      (assert (i mod (8 * W) / 8 < W) as Hj by (apply Z.div_lt_upper_bound; lia)); (assert (0 <= i mod (8 * W) / 8) as Hj0 by (apply Z.div_pos; lia));
      rewrite nth_slice by nia;
      (assert (i / (8 * W) * W + i mod (8 * W) / 8 = i / 8) as -> by (rewrite Hd at 3; replace (8 * W * (i / (8 * W)) + i mod (8 * W)) with (i mod (8 * W) + (i / (8 * W) * W) * 8) by ring; rewrite Z.div_add by lia; ring));
      (assert ((i mod (8 * W)) mod 8 = i mod 8) as -> by (rewrite Hd at 2; replace (8 * W * (i / (8 * W)) + i mod (8 * W)) with (i mod (8 * W) + (i / (8 * W) * W) * 8) by ring; rewrite Z.mod_add by lia; reflexivity)); auto.
  Qed.
End Facts.
