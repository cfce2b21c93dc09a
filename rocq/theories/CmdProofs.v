(** * CmdProofs: proofs about command lines. *)
From Coq Require Import ZArith List Ascii String Bool Lia.
From Verif Require Import PyBase PyFacts PyInt PyIntFacts RegexModel RegexFacts Platform ToolsModel TabModel LogModel ExprProofs StraceModel CmdModel CmdSpec.
Import ListNotations.
Open Scope Z_scope.

(** ** optparse *)
Section Any.
  Context (options : list ooption).
  Notation parse := (parse_args options).

  Lemma parse_cons arg r values largs : arg <> T "--" -> parse (arg :: r) values largs =
    if is_dash arg then
      match (if starts_with (T "--") arg then long_opt options arg values else short_opts options (skipn 1 arg) values) with
      | inr code => inr code
      | inl (values, None) => parse r values largs
      | inl (values, Some o) =>
          match r with
          | [] => usage_error
          | v :: r => match process_value o v values with inl values => parse r values largs | inr code => inr code end
          end
      end
    else parse r values (largs ++ [arg]).
  Proof. intros H. cbn [parse_args]. destruct (text_eqb arg (T "--")) eqn:E; [apply text_eqb_eq in E; contradiction|]. reflexivity. Qed.
  Lemma parse_app : forall n a, (List.length a <= n)%nat -> ~ In (T "--") a -> forall b values largs v l,
    parse a values largs = inl (v, l) -> parse (a ++ b) values largs = parse b v l.
  Proof.
    induction n as [|n IH]; intros a Hn Ha b values largs v l Hp.
    - destruct a; [|cbn in Hn; lia]. cbn in Hp. injection Hp as <- <-. reflexivity.
    - destruct a as [|arg a]; [cbn in Hp; injection Hp as <- <-; reflexivity|]. cbn [List.length] in Hn.
      assert (arg <> T "--") as Harg by (intros ->; apply Ha; now left). assert (~ In (T "--") a) as Ha' by (intros H; apply Ha; now right).
      cbn [app]. rewrite parse_cons in * by exact Harg. destruct (is_dash arg).
      + destruct (if starts_with _ _ then _ else _) as [[values' [o|]]|code]; [|eapply IH; eauto; lia|discriminate].
        destruct a as [|x a]; [discriminate|]. cbn [app]. destruct (process_value _ _ _); [|discriminate]. eapply IH; eauto; cbn in *; [lia|tauto].
      + eapply IH; eauto. lia.
  Qed.
  Lemma parse_concat a b values largs v l : ~ In (T "--") a -> parse a values largs = inl (v, l) -> parse (a ++ b) values largs = parse b v l.
  Proof. intros Ha Hp. exact (parse_app _ a (Nat.le_refl _) Ha b values largs v l Hp). Qed.
  Lemma parse_separator a b values v l : ~ In (T "--") a -> parse a values [] = inl (v, l) -> parse (a ++ T "--" :: b) values [] = inl (v, l ++ b).
  Proof. intros Ha Hp. rewrite (parse_concat _ _ _ _ _ _ Ha Hp). reflexivity. Qed.
  Lemma is_dash_plain t : plain_arg t -> is_dash t = false /\ t <> T "--".
  Proof.
    intros [->|H]; [split; [reflexivity|discriminate]|]. destruct t as [|c t]; [split; [reflexivity|discriminate]|].
    unfold is_dash. cbn [T list_ascii_of_string starts_with]. destruct (Ascii.eqb_spec "-"%char c) as [<-|Hc]; [exfalso; now apply (H t)|]. split; [reflexivity|]. intros [= -> _]. congruence.
  Qed.
  Lemma parse_plain l : Forall plain_arg l -> forall values largs, parse l values largs = inl (values, largs ++ l).
  Proof.
    induction 1 as [|t l Ht _ IH]; intros values largs; [cbn; now rewrite app_nil_r|]. destruct (is_dash_plain t Ht) as [Hd Hn]. rewrite parse_cons, Hd, IH by exact Hn. now rewrite <- app_assoc.
  Qed.

  (** Values *)
  Lemma split1_none c s : ~ In c s -> split1 c s = None.
  Proof. induction s as [|x s IH]; intros H; [reflexivity|]. cbn [split1]. destruct (Ascii.eqb_spec x c) as [->|]; [exfalso; apply H; now left|]. rewrite IH; [reflexivity|]. intros Hi; apply H; now right. Qed.
  Lemma split1_app c s t : ~ In c s -> split1 c (s ++ c :: t) = Some (s, t).
  Proof. induction s as [|x s IH]; intros H; cbn [app split1]; [now rewrite Ascii.eqb_refl|]. destruct (Ascii.eqb_spec x c) as [->|]; [exfalso; apply H; now left|]. rewrite IH; [reflexivity|]. intros Hi; apply H; now right. Qed.
  Lemma long_is_dash name : is_dash (T "--" ++ name) = true.
  Proof. unfold is_dash. cbn [T list_ascii_of_string app starts_with Ascii.eqb Bool.eqb andb]. reflexivity. Qed.
  Lemma long_value name o v r values largs : name <> [] -> ~ In "="%char name -> long_option options (T "--" ++ name) = Some o -> takes_value o = true ->
    parse ((T "--" ++ name ++ T "=" ++ v) :: r) values largs = parse ((T "--" ++ name) :: v :: r) values largs.
  Proof.
    intros Hne Heq Ho Hv. assert (forall x, T "--" ++ name ++ x <> T "--") as Hn by (intros x H; change (T "--") with ("-"%char :: "-"%char :: []) in H; injection H as H; destruct name; [congruence|discriminate]).
    rewrite parse_cons by apply Hn. rewrite parse_cons by (specialize (Hn []); now rewrite app_nil_r in Hn). rewrite !long_is_dash, !starts_with_app. unfold long_opt.
    assert (~ In "="%char (T "--" ++ name)) as H2 by (intros H; apply in_app_or in H as [H|H]; [cbn in H; destruct H as [H|[H|[]]]; discriminate|contradiction]).
    rewrite (split1_none "="%char (T "--" ++ name)) by exact H2.
    replace (split1 "="%char (T "--" ++ name ++ T "=" ++ v)) with (Some (T "--" ++ name, v)) by (symmetry; rewrite app_assoc; apply (split1_app "="%char (T "--" ++ name) v H2)).
    rewrite Ho, Hv. destruct (process_value o v values); reflexivity.
  Qed.
  Lemma short_value c o v r values largs : c <> "-"%char -> v <> [] -> find_option options ["-"%char; c] = Some o -> takes_value o = true ->
    parse (("-"%char :: c :: v) :: r) values largs = parse (["-"%char; c] :: v :: r) values largs.
  Proof.
    intros Hc Hne Ho Hv. assert (forall x, "-"%char :: c :: x <> T "--") as Hn by (intros x [= ? _]; contradiction). rewrite !parse_cons by apply Hn.
    assert (forall x, is_dash ("-"%char :: c :: x) = true) as Hd by (intros x; unfold is_dash; cbn [T list_ascii_of_string starts_with]; rewrite Ascii.eqb_refl; reflexivity). rewrite !Hd.
    assert (forall x, starts_with (T "--") ("-"%char :: c :: x) = false) as Hs by (intros x; cbn [T list_ascii_of_string starts_with]; rewrite Ascii.eqb_refl; destruct (Ascii.eqb_spec "-"%char c); [congruence|reflexivity]). rewrite !Hs.
    cbn [skipn short_opts]. rewrite Ho, Hv. destruct v as [|x v]; [congruence|]. destruct (process_value o (x :: v) values); reflexivity.
  Qed.
  (** Flags in one argument *)
  Lemma bundle c o d s r values largs : c <> "-"%char -> d <> "-"%char -> find_option options ["-"%char; c] = Some o -> takes_value o = false ->
    parse (("-"%char :: c :: d :: s) :: r) values largs = parse (["-"%char; c] :: ("-"%char :: d :: s) :: r) values largs.
  Proof.
    intros Hc Hdd Ho Hv. assert (forall c x, c <> "-"%char -> "-"%char :: c :: x <> T "--") as Hn by (intros ? x H [= ? _]; contradiction).
    rewrite !parse_cons with (arg := "-"%char :: c :: _) by now apply Hn.
    assert (forall c x, is_dash ("-"%char :: c :: x) = true) as Hd by (intros ? x; unfold is_dash; cbn [T list_ascii_of_string starts_with]; rewrite Ascii.eqb_refl; reflexivity). rewrite !Hd.
    assert (forall c x, c <> "-"%char -> starts_with (T "--") ("-"%char :: c :: x) = false) as Hs by (intros c' x H; cbn [T list_ascii_of_string starts_with]; rewrite Ascii.eqb_refl; destruct (Ascii.eqb_spec "-"%char c'); [congruence|reflexivity]). rewrite !Hs by assumption.
    cbn [skipn short_opts]. rewrite Ho, Hv. destruct (process_flag o values) as [values'|code]; [|reflexivity].
    rewrite parse_cons by now apply Hn. rewrite Hd, Hs by assumption. cbn [skipn short_opts]. destruct (find_option options ["-"%char; d]); reflexivity.
  Qed.
  (** Abbreviations *)
  Lemma mem_In x l : mem x l = true <-> In x l.
  Proof. unfold mem. rewrite existsb_exists. split; [intros (y & Hy & E); apply text_eqb_eq in E; now subst|intros H; exists x; split; [exact H|now apply text_eqb_eq]]. Qed.
  Lemma filter_unique (f : text -> bool) l w : NoDup l -> In w l -> f w = true -> (forall x, In x l -> f x = true -> x = w) -> filter f l = [w].
  Proof.
    induction 1 as [|x l Hx Hl IH]; intros Hw Hf Hu; [destruct Hw|]. cbn [filter]. destruct (f x) eqn:E.
    - assert (x = w) as -> by (apply Hu; [now left|exact E]). f_equal. rewrite <- (app_nil_r (filter f l)). assert (filter f l = []) as ->; [|reflexivity].
      destruct (filter f l) as [|y m] eqn:F; [reflexivity|]. exfalso. assert (In y (filter f l)) as Hy by (rewrite F; now left). apply filter_In in Hy as [Hy Ey]. assert (y = w) by (apply Hu; [now right|exact Ey]). now subst.
    - apply IH; [destruct Hw as [->|Hw]; [congruence|exact Hw]|exact Hf|intros; apply Hu; [now right|assumption]].
  Qed.
  Lemma abbrev_match s w : NoDup (long_names options) -> In w (long_names options) -> starts_with s w = true ->
    s = w \/ (forall x, In x (long_names options) -> starts_with s x = true -> x = w) -> match_abbrev options s = Some w.
  Proof.
    intros Hnd Hw Hs Hu. unfold match_abbrev. destruct (mem s (long_names options)) eqn:E.
    - apply mem_In in E. destruct Hu as [->|Hu]; [reflexivity|]. f_equal. apply Hu; [exact E|]. apply starts_with_spec. exists []. now rewrite app_nil_r.
    - destruct Hu as [->|Hu]; [exfalso; apply mem_In in Hw; congruence|]. now rewrite (filter_unique (starts_with s) (long_names options) w Hnd Hw Hs Hu).
  Qed.
  Lemma abbrev_parse s w v r values largs : NoDup (long_names options) -> (forall x, In x (long_names options) -> ~ In "="%char x) -> In w (long_names options) ->
    starts_with (T "--") s = true -> s <> T "--" -> starts_with s w = true ->
    s = w \/ (forall x, In x (long_names options) -> starts_with s x = true -> x = w) ->
    parse (s :: r) values largs = parse (w :: r) values largs /\ parse ((s ++ T "=" ++ v) :: r) values largs = parse ((w ++ T "=" ++ v) :: r) values largs.
  Proof.
    intros Hnd Hne Hw Hd Hs Hp Hu. pose proof (abbrev_match s w Hnd Hw Hp Hu) as Hm.
    assert (match_abbrev options w = Some w) as Hmw by (unfold match_abbrev; apply mem_In in Hw; now rewrite Hw).
    assert (~ In "="%char s) as Hes. { intros H. apply (Hne w Hw). apply starts_with_spec in Hp as (t & ->). apply in_or_app. now left. }
    apply starts_with_spec in Hd as (s' & ->). apply starts_with_spec in Hp as (w' & ->). destruct s' as [|c s']; [exfalso; apply Hs; reflexivity|].
    assert (forall x y, (T "--" ++ c :: x) ++ y <> T "--") as Hn by (intros; discriminate). assert (forall x, (T "--" ++ c :: x) <> T "--") as Hn' by (intros; discriminate).
    split.
    - rewrite !parse_cons by (try apply Hn; try apply Hn'). rewrite <- !app_assoc, !long_is_dash, !starts_with_app. unfold long_opt. rewrite (split1_none "="%char (T "--" ++ c :: s')) by exact Hes.
      rewrite (split1_none "="%char (T "--" ++ (c :: s') ++ w')) by (rewrite app_assoc; now apply Hne). unfold long_option. rewrite Hm, app_assoc, Hmw. reflexivity.
    - rewrite !parse_cons by (rewrite <- ?app_assoc; discriminate). rewrite <- !app_assoc, !long_is_dash, !starts_with_app. unfold long_opt.
      replace (split1 "="%char (T "--" ++ (c :: s') ++ T "=" ++ v)) with (Some (T "--" ++ c :: s', v)) by (symmetry; rewrite app_assoc; apply (split1_app "="%char (T "--" ++ c :: s') v Hes)).
      replace (split1 "="%char (T "--" ++ (c :: s') ++ w' ++ T "=" ++ v)) with (Some ((T "--" ++ c :: s') ++ w', v)) by (symmetry; rewrite !app_assoc; rewrite <- (app_assoc (_ ++ w')); apply (split1_app "="%char ((T "--" ++ c :: s') ++ w') v); now apply Hne).
      unfold long_option. rewrite Hm, Hmw. reflexivity.
  Qed.
End Any.

(** ** Numbers *)
Lemma digit_chars b n : 2 <= b <= 16 -> 0 <= n -> Forall (fun c => is_hex_lower c = true) (digits b n).
Proof.
  intros Hb Hn. apply digits_Forall; [lia| |exact Hn]. intros d Hd.
  assert (d = 0 \/ d = 1 \/ d = 2 \/ d = 3 \/ d = 4 \/ d = 5 \/ d = 6 \/ d = 7 \/ d = 8 \/ d = 9 \/ d = 10 \/ d = 11 \/ d = 12 \/ d = 13 \/ d = 14 \/ d = 15) as H by lia.
  repeat (destruct H as [->|H]; [reflexivity|]). subst. reflexivity.
Qed.
Lemma read_digits_zero b s : 2 <= b -> read_digits b ("0"%char :: s) 0 = read_digits b s 0.
Proof. intros H. cbn [read_digits]. change (digit_val "0"%char) with (Some 0). cbn iota. replace (0 <? b) with true by blia. reflexivity. Qed.
Lemma plain_no_underscore s : Forall (fun c => is_hex_lower c = true) s -> forall c, In c s -> c <> "_"%char.
Proof. intros H c Hc. rewrite Forall_forall in H. now apply hex_plain, H. Qed.
Lemma strip_hex s : Forall (fun c => is_hex_lower c = true) s -> strip s = s.
Proof. intros H. apply strip_plain. eapply Forall_impl; [|exact H]. intros c Hc. now apply hex_plain. Qed.
Lemma parse_hex n : 0 <= n -> parse_num (T "0x" ++ digits 16 n) = Ok n.
Proof.
  intros Hn. pose proof (digit_chars 16 n ltac:(lia) Hn) as Hc. pose proof (digits_read 16 n ltac:(lia) Hn) as Hr. pose proof (digits_nonempty 16 n) as Hne.
  unfold parse_num. change (firstn 2 (T "0x" ++ digits 16 n)) with (T "0x"). change (text_eqb (lower (T "0x")) (T "0x")) with true. cbn iota. unfold py_int.
  assert (strip (T "0x" ++ digits 16 n) = T "0x" ++ digits 16 n) as ->.
  { apply strip_plain. constructor; [reflexivity|]. constructor; [reflexivity|]. eapply Forall_impl; [|exact Hc]. intros c H. now apply hex_plain. }
  change (T "0x" ++ digits 16 n) with ("0"%char :: "x"%char :: digits 16 n). cbn [Ascii.eqb Bool.eqb]. unfold int_unsigned. change (Ascii.eqb "0" "0" && base_letter 16 "x") with true. cbn iota.
  destruct (digits 16 n) as [|u s] eqn:E; [congruence|]. inversion Hc as [|? ? Hu _]; subst. destruct (Ascii.eqb_spec u "_"%char) as [->|_]; [discriminate Hu|].
  rewrite int_digits_read; [now rewrite Hr|now apply plain_no_underscore|right; discriminate].
Qed.
Lemma oct_chars n : 0 <= n -> Forall (fun c => is_hex_lower c = true /\ c <> "b"%char) (digits 8 n).
Proof.
  intros Hn. apply digits_Forall; [lia| |exact Hn]. intros d Hd.
  assert (d = 0 \/ d = 1 \/ d = 2 \/ d = 3 \/ d = 4 \/ d = 5 \/ d = 6 \/ d = 7) as H by lia.
  repeat (destruct H as [->|H]; [split; [reflexivity|discriminate]|]). subst. split; [reflexivity|discriminate].
Qed.
Lemma parse_octal n : 0 <= n -> parse_num (T "0" ++ digits 8 n) = Ok n.
Proof.
  intros Hn. pose proof (oct_chars n Hn) as Ho. pose proof (digit_chars 8 n ltac:(lia) Hn) as Hc. pose proof (digits_read 8 n ltac:(lia) Hn) as Hr. pose proof (digits_nonempty 8 n) as Hne.
  unfold parse_num. change (T "0" ++ digits 8 n) with ("0"%char :: digits 8 n) in *. destruct (digits 8 n) as [|u s] eqn:E; [congruence|]. inversion Ho as [|? ? [Hu Hb] _]; subst.
  assert (forall c, is_hex_lower c = true -> c <> "b"%char -> text_eqb (lower ["0"%char; c]) (T "0x") = false /\ text_eqb (lower ["0"%char; c]) (T "0b") = false) as Hl.
  { intros c H1 H2. pose proof (forall_ascii (fun c => negb (is_hex_lower c) || Ascii.eqb c "b"%char || (negb (text_eqb (lower ["0"%char; c]) (T "0x")) && negb (text_eqb (lower ["0"%char; c]) (T "0b")))) ltac:(vm_compute; reflexivity) c) as F.
    cbv beta in F. rewrite H1, (proj2 (Ascii.eqb_neq _ _) H2) in F. cbn [negb orb] in F. now rewrite andb_true_iff, !negb_true_iff in F. }
  destruct (Hl u Hu Hb) as [L1 L2]. cbn [firstn]. rewrite L1, L2. change (starts_with (T "0") ("0"%char :: u :: s)) with true. cbn iota. unfold py_int.
  rewrite strip_hex by (constructor; [reflexivity|exact Hc]). cbn [Ascii.eqb Bool.eqb]. unfold int_unsigned.
  assert (base_letter 8 u = false) as ->.
  { pose proof (forall_ascii (fun c => negb (is_hex_lower c) || negb (base_letter 8 c)) ltac:(vm_compute; reflexivity) u) as F. cbv beta in F. rewrite Hu in F. now apply negb_true_iff in F. }
  rewrite andb_false_r. rewrite int_digits_read; [|apply plain_no_underscore; constructor; [reflexivity|exact Hc]|right; discriminate]. rewrite read_digits_zero by lia. now rewrite Hr.
Qed.
(** The first digit of a positive number is not 0. *)
Lemma digits_first n : 0 < n -> match digits 10 n with c :: _ => c <> "0"%char | [] => True end.
Proof.
  intros Hn. pose proof (digits_read 10 n ltac:(lia) ltac:(lia)) as Hr. destruct (digits 10 n) as [|c s] eqn:E; [exact I|]. intros ->. rewrite read_digits_zero in Hr by lia.
  destruct s as [|d s]; [cbn in Hr; injection Hr as Hr; lia|].
  (* the number of digits *)
  assert (n < 10 ^ Z.of_nat (List.length (d :: s))) as Hlt.
  { clear E. revert Hr. generalize (d :: s). clear d s. intros t.
    assert (forall t acc n, 0 <= acc -> read_digits 10 t acc = Some n -> n < (acc + 1) * 10 ^ Z.of_nat (List.length t)) as H.
    { intros u; induction u as [|c u IH]; intros acc m Ha; cbn [read_digits List.length]; [intros E0; injection E0 as <-; change (10 ^ Z.of_nat 0) with 1; lia|].
      destruct (digit_val c) as [v|] eqn:Ev; [|discriminate]. destruct (v <? 10) eqn:El; [|discriminate]. zb. intros H.
      assert (0 <= v) by (unfold digit_val in Ev; destruct (_ && _) eqn:D; [|clear D; destruct (_ && _) eqn:D; [|clear D; destruct (_ && _) eqn:D; [|discriminate]]]; injection Ev as <-; apply andb_prop in D as [D _]; zb; lia).
      apply IH in H; [|lia]. rewrite Nat2Z.inj_succ, Z.pow_succ_r by lia. nia. }
    intros Hr. apply H in Hr; lia. }
  pose proof (digits_length 10 n (Z.of_nat (List.length (d :: s))) ltac:(lia) ltac:(lia) ltac:(cbn [List.length]; lia) Hlt) as Hl. rewrite E in Hl. unfold zlen in Hl. cbn [List.length] in *. lia.
Qed.
Lemma parse_decimal n : parse_num (str_int n) = Ok n.
Proof.
  destruct (Z.eq_dec n 0) as [->|Hn]; [reflexivity|]. rewrite <- (py_int_plain n). unfold parse_num.
  assert (forall c s, c <> "0"%char -> text_eqb (lower (firstn 2 (c :: s))) (T "0x") = false /\ text_eqb (lower (firstn 2 (c :: s))) (T "0b") = false /\ starts_with (T "0") (c :: s) = false) as H.
  { intros c s Hc. assert (Ascii.eqb (to_lower_char c) "0"%char = false) as E.
    { pose proof (forall_ascii (fun c => Ascii.eqb c "0"%char || negb (Ascii.eqb (to_lower_char c) "0"%char)) ltac:(vm_compute; reflexivity) c) as F. cbv beta in F. rewrite (proj2 (Ascii.eqb_neq _ _) Hc) in F. now apply negb_true_iff in F. }
    cbn [firstn lower map]. cbn [T list_ascii_of_string text_eqb starts_with]. rewrite E. repeat split. rewrite (proj2 (Ascii.eqb_neq "0"%char c)) by congruence. reflexivity. }
  unfold str_int, fmt_int. destruct (n <? 0) eqn:E; zb.
  - destruct (H "-"%char (digits 10 (- n)) ltac:(discriminate)) as (H1 & H2 & H3). now rewrite H1, H2, H3.
  - pose proof (digits_first n ltac:(lia)) as Hd. pose proof (digits_nonempty 10 n) as Hne. destruct (digits 10 n) as [|c s]; [congruence|]. destruct (H c s Hd) as (H1 & H2 & H3). now rewrite H1, H2, H3.
Qed.
