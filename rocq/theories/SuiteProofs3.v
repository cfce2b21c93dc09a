(** * SuiteProofs3: the tests of single calls (C137). *)
From Coq Require Import ZArith List Ascii String Bool Lia.
From Verif Require Import PyBase PyFacts Platform IntModel IntSpec IntProofs RegModel SigModel TabModel TabSpec TabProofs ToolsModel ToolsProofs RegexModel RegexSpec RegexProofs ArgModel ArgSpec ArgProofs ArgProofs2
  DbgModel DbgSpec SysModel SysSpec SysProofs SysProofs2 LogModel StraceModel StraceSpec StorySpec OutModel OutSpec ShownSpec ShownProofs SuiteModel SuiteSpec SuiteProofs SuiteProofs2.
Import ListNotations.
Open Scope Z_scope.
#[local] Opaque SYSCALL_PROTOTYPES SYSCALL_ARG_DICT.

(** ** Arguments without a decoder *)
Definition on (s : os) : platform := Platform s X86_64 false true.
Definition no_dict (s : os) (call name : text) : bool :=
  match dget text_eqb call (SYSCALL_ARG_DICT (on s)) with Some d => match dget text_eqb name d with Some _ => false | None => true end | None => true end.
Definition pair_free (call name : text) : bool :=
  negb (text_eqb name []) && negb (text_eqb name (T "signum")) && negb (existsb (fun x => text_eqb call (fst x) && text_eqb name (snd x)) decoded_pairs) &&
  no_dict Linux call name && no_dict FreeBSD call name && no_dict OpenBSD call name && no_dict MacOSX call name.
Lemma dict_os p : SYSCALL_ARG_DICT p = SYSCALL_ARG_DICT (on (p_os p)).
Proof. reflexivity. Qed.
Lemma free_plain p call rt args value ty name : pair_free call name = true -> plain p (Func call rt args) (Arg value ty (Some name) None).
Proof.
  unfold pair_free. intros H. repeat (apply andb_prop in H as [H ?]). exists name. cbn [a_name f_name a_value]. split; [reflexivity|].
  split; [apply text_eqb_neq; now apply negb_true_iff|]. split; [apply text_eqb_neq; now apply negb_true_iff|]. split.
  - intros Hin. match goal with Hx : negb (existsb _ _) = true |- _ => apply negb_true_iff in Hx; rename Hx into He end.
    assert (existsb (fun x : text * text => text_eqb call (fst x) && text_eqb name (snd x)) decoded_pairs = true) as Hc; [|congruence].
    apply existsb_exists. exists (call, name). split; [exact Hin|]. cbn [fst snd]. now rewrite !text_eqb_refl.
  - intros t Ht. apply named_looked in Ht. unfold looked_up in Ht. rewrite dict_os in Ht.
    assert (no_dict (p_os p) call name = true) as Hd by (destruct (p_os p); assumption). unfold no_dict in Hd.
    destruct (dget text_eqb call (SYSCALL_ARG_DICT (on (p_os p)))) as [d|]; [|discriminate Ht]. destruct (dget text_eqb name d); [discriminate Hd|discriminate Ht].
Qed.

Section Texts.
  Context (p : platform) (ns : namespace) (repr_fs : list byte -> text).
  Notation opts := (Options false false true 300 false 20 false).
  Notation getText := (getText p ns repr_fs opts).
  Lemma string_text b call rt args address ty name t : pair_free call name = true -> existsb (text_eqb name) FILENAME_ARGUMENTS = true ->
    ty = T "const char *" \/ ty = T "char *" -> text_at b address t ->
    getText (st_view b) (Func call rt args) (Arg address (Some ty) (Some name) None) = Ok (repr_fs t).
  Proof.
    intros Hf Hn Ht (Ha & Hs). pose proof (free_plain p call rt args address (Some ty) name Hf) as Hp.
    assert (has_type (Arg address (Some ty) (Some name) None) (T "char *")) as Hty by (split; [discriminate|]; split; [reflexivity|]; destruct Ht as [-> | ->]; [right|left]; reflexivity).
    apply fresh; [left; reflexivity|]. rewrite (plain_text p ns repr_fs opts (st_view b) _ _ _ Hp Hty). cbn [a_name get a_value]. rewrite Hn.
    change (text_eqb (T "char *") (T "char *")) with true. cbn [andb]. unfold readCString. replace (address =? 0) with false by (symmetry; now apply Z.eqb_neq). cbn [negb o_string_max_length].
    rewrite Hs. reflexivity.
  Qed.
  Lemma file_text b call rt args address ty name t : pair_free call name = true -> existsb (text_eqb name) FILENAME_ARGUMENTS = true ->
    ty = T "const char *" \/ ty = T "char *" -> name_at repr_fs b address t ->
    getText (st_view b) (Func call rt args) (Arg address (Some ty) (Some name) None) = Ok (T "'" ++ t ++ T "'").
  Proof. intros Hf Hn Ht [Hs Hr]. rewrite <- Hr. exact (string_text b call rt args address ty name t Hf Hn Ht Hs). Qed.
  Lemma decoded_text v call rt args value ty name d : no_dict (p_os p) call name = true -> ty <> [] -> In ((call, name), d) (decoders p ns) ->
    getText v (Func call rt args) (Arg value (Some ty) (Some name) None) = Ok (d value).
  Proof.
    intros Hd Ht Hin. refine (decoded_shown p ns repr_fs opts v (Func call rt args) (Arg value (Some ty) (Some name) None) name d (or_introl eq_refl) _ eq_refl Hin _); [destruct ty; [congruence|reflexivity]|].
    cbn [f_name a_value]. intros t Hn. apply named_looked in Hn. unfold looked_up in Hn. rewrite dict_os in Hn. unfold no_dict in Hd.
    destruct (dget text_eqb call _) as [dd|]; [|discriminate Hn]. destruct (dget text_eqb name dd); [discriminate Hd|discriminate Hn].
  Qed.
  Lemma int_text v call rt args value name : pair_free call name = true -> exists n, getText v (Func call rt args) (Arg value (Some (T "int")) (Some name) None) = Ok (str_int n).
  Proof.
    intros Hf. exists (uint2int value). pose proof (free_plain p call rt args value (Some (T "int")) name Hf) as Hp.
    assert (has_type (Arg value (Some (T "int")) (Some name) None) (T "int")) as Hty by (split; [discriminate|]; split; [reflexivity|left; reflexivity]).
    assert (absent (a_text (Arg value (Some (T "int")) (Some name) None))) as Hx by (left; reflexivity).
    apply (proj2 (integer_shown_plain p ns repr_fs opts v _ _ _ true 32 Hx Hp Hty eq_refl)); [|apply uint2int32_spec].
    unfold raw_type. cbn [In]. intros H. repeat destruct H as [H|H]; try discriminate H. destruct H.
  Qed.
  Lemma uint_text v call rt args value ty name : pair_free call name = true -> ty = T "unsigned int" \/ ty = T "unsigned long" ->
    getText v (Func call rt args) (Arg value (Some ty) (Some name) None) = Ok (str_int value).
  Proof.
    intros Hf Ht. pose proof (free_plain p call rt args value (Some ty) name Hf) as Hp.
    assert (has_type (Arg value (Some ty) (Some name) None) ty) as Hty by (destruct Ht as [-> | ->]; (split; [discriminate|]; split; [reflexivity|left; reflexivity])).
    assert (absent (a_text (Arg value (Some ty) (Some name) None))) as Hx by (left; reflexivity).
    destruct Ht as [-> | ->]; refine (proj1 (integer_shown_plain p ns repr_fs opts v _ _ _ _ _ Hx Hp Hty eq_refl) _); unfold raw_type; cbn [In]; auto.
  Qed.
End Texts.

Lemma den_step r l b w1 w2 rest c c1 c' : l <> [] -> den r b w1 (w2 ++ rest) c c1 -> den (rcat l) (rev w1 ++ b) w2 rest c1 c' -> den (rcat (r :: l)) b (w1 ++ w2) rest c c'.
Proof. intros Hl H1 H2. apply den_cat_cons; [exact Hl|]. exists w1, w2, c1. auto. Qed.
Lemma den_same t b rest c : den (rtext t) b t rest c c.
Proof. now apply den_text. Qed.
Lemma den_one x b rest c : den (rchar x) b [x] rest c c.
Proof. now apply den_char. Qed.
Lemma den_dots t b rest c : one_line t -> den (RStar rdot) b t rest c c.
Proof.
  intros H. unfold rdot. apply den_star_set. split; [|reflexivity]. apply Forall_forall. intros x Hx. apply negb_true_iff. destruct (Ascii.eqb x newline) eqn:E; [|reflexivity].
  apply Ascii.eqb_eq in E. subst x. destruct (H Hx).
Qed.
Lemma one_line_app a b : one_line a -> one_line b -> one_line (a ++ b).
Proof. unfold one_line. rewrite in_app_iff. tauto. Qed.
Lemma one_line_const t : forallb (fun c => negb (Ascii.eqb c (z2b 10))) t = true -> one_line t.
Proof. intros H Hin. rewrite forallb_forall in H. specialize (H _ Hin). rewrite Ascii.eqb_refl in H. discriminate H. Qed.
Lemma str_int_chars (P : ascii -> Prop) n : P "-"%char -> (forall d, 0 <= d < 10 -> P (digit_char d)) -> Forall P (str_int n).
Proof.
  intros Hm Hd. unfold str_int, fmt_int. destruct (n <? 0) eqn:E; [constructor; [exact Hm|]|]; apply digits_Forall; try lia; auto; zb; lia.
Qed.
Lemma str_int_line n : one_line (str_int n).
Proof.
  intros H. pose proof (str_int_chars (fun c => c <> z2b 10) n ltac:(discriminate)) as Hf.
  assert (forall d, 0 <= d < 10 -> digit_char d <> z2b 10) as Hd by (apply (zrange_Forall (fun d => digit_char d <> z2b 10) 10); repeat constructor; discriminate).
  specialize (Hf Hd). rewrite Forall_forall in Hf. exact (Hf _ H eq_refl).
Qed.
Lemma str_int_some n : str_int n <> [].
Proof. intros E. pose proof (str_int_chars (fun _ => True) n I (fun _ _ => I)). unfold str_int, fmt_int in E. destruct (n <? 0); [discriminate E|]. exact (digits_nonempty 10 n E). Qed.
