(** * DocProofs: reading docstrings. *)
From Coq Require Import ZArith List Ascii String Bool Lia.
From Verif Require Import PyBase PyFacts ToolsProofs DocModel DocSpec.
Import ListNotations.
Open Scope Z_scope.

Lemma indent_spaces n s : indent_of (List.repeat " "%char n ++ s) = (n + indent_of s)%nat.
Proof. induction n as [|n IH]; [reflexivity|]. cbn [List.repeat List.app indent_of]. now rewrite IH. Qed.
Lemma skipn_spaces n k s : skipn (n + k) (List.repeat " "%char n ++ s) = skipn k s.
Proof. induction n as [|n IH]; [reflexivity|exact IH]. Qed.
Lemma after_spaces n s : after_indent (List.repeat " "%char n ++ s) = after_indent s.
Proof. unfold after_indent. now rewrite indent_spaces, skipn_spaces. Qed.
Lemma split_indent s : s = List.repeat " "%char (indent_of s) ++ after_indent s.
Proof.
  unfold after_indent. induction s as [|c s IH]; [reflexivity|]. cbn [indent_of]. destruct (Ascii.eqb_spec c " "%char) as [->|]; [|reflexivity].
  cbn [List.repeat List.app skipn]. now rewrite <- IH.
Qed.
Lemma starts_split p s : starts_with p s = true -> exists r, s = p ++ r.
Proof.
  revert s. induction p as [|c p IH]; intros [|d s]; cbn [starts_with]; intros H; try discriminate; try (now exists []); [now exists (d :: s)|].
  apply andb_prop in H as [H1 H]. apply Ascii.eqb_eq in H1 as <-. apply IH in H as [r ->]. now exists r.
Qed.
Lemma starts_app p s : starts_with p (p ++ s) = true.
Proof. induction p as [|c p IH]; [reflexivity|]. cbn. now rewrite Ascii.eqb_refl. Qed.
Lemma mark_after mark rest : (exists c m, T mark = c :: m /\ c <> " "%char) -> after_indent (T mark ++ rest) = T mark ++ rest.
Proof. intros (c & m & E & N). unfold after_indent. rewrite E. cbn. now rewrite (proj2 (Ascii.eqb_neq c " "%char) N). Qed.
Lemma mark_iff mark line : (exists c m, T mark = c :: m /\ c <> " "%char) -> starts_with (T mark) (after_indent line) = true <-> begins_with mark line.
Proof.
  intros M. split.
  - intros H. apply starts_split in H as [r H]. exists (indent_of line), r. rewrite <- H. apply split_indent.
  - intros (n & r & ->). rewrite after_spaces, mark_after by exact M. apply starts_app.
Qed.
Lemma gt_mark : exists c m, T ">>>" = c :: m /\ c <> " "%char.
Proof. eexists _, _. split; [reflexivity|discriminate]. Qed.
Lemma dot_mark : exists c m, T "..." = c :: m /\ c <> " "%char.
Proof. eexists _, _. split; [reflexivity|discriminate]. Qed.
Lemma ps1_iff line : is_ps1 line = true <-> begins_with ">>>" line.
Proof. apply mark_iff, gt_mark. Qed.
Lemma ps2_iff line : is_ps2 line = true <-> begins_with "..." line.
Proof. apply mark_iff, dot_mark. Qed.
Lemma blank_iff line : is_blank line = true <-> empty_line line.
Proof.
  unfold is_blank. split.
  - destruct (after_indent line) eqn:A; [|discriminate]. intros _. exists (indent_of line). pose proof (split_indent line) as S. now rewrite A, app_nil_r in S.
  - intros [n ->]. pose proof (after_spaces n []) as S. rewrite app_nil_r in S. now rewrite S.
Qed.
Lemma not_true b (P : Prop) : (b = true <-> P) -> ~ P -> b = false.
Proof. intros H N. destruct b; [|reflexivity]. destruct N. now apply H. Qed.
Lemma typed_ps1 n line : is_ps1 (typed n ">>>" line) = true.
Proof. apply ps1_iff. unfold typed. eexists _, _. reflexivity. Qed.
Lemma typed_ps2 n line : is_ps2 (typed n "..." line) = true.
Proof. apply ps2_iff. unfold typed. eexists _, _. reflexivity. Qed.
Lemma typed_not_ps1 n line : is_ps1 (typed n "..." line) = false.
Proof. unfold is_ps1, typed. rewrite after_spaces, mark_after by exact dot_mark. reflexivity. Qed.

Definition raw (p : piece) : list found :=
  match p with
  | Prose _ => []
  | Shown n first more out => [Found (typed n ">>>" first :: map (typed n "...") more) (map (fun line => List.repeat " "%char n ++ line) out)]
  end.
Lemma find_more n more src rest :
  find_examples (Some (Found src [], false)) (map (typed n "...") more ++ rest) = find_examples (Some (Found (src ++ map (typed n "...") more) [], false)) rest.
Proof.
  revert src. induction more as [|line more IH]; intros src; cbn [map List.app]; [now rewrite app_nil_r|].
  cbn [find_examples]. rewrite typed_not_ps1, typed_ps2. cbn [negb andb f_source f_want]. rewrite IH, <- app_assoc. reflexivity.
Qed.
Lemma begins_indented mark n line : begins_with mark (List.repeat " "%char n ++ line) -> (exists c m, T mark = c :: m /\ c <> " "%char) -> begins_with mark line.
Proof. intros H M. apply mark_iff; [exact M|]. rewrite <- (after_spaces n). now apply mark_iff. Qed.
Lemma empty_indented n line : empty_line (List.repeat " "%char n ++ line) -> empty_line line.
Proof. intros H. apply blank_iff. apply blank_iff in H. unfold is_blank in *. now rewrite after_spaces in H. Qed.
Lemma find_out n out src w wanted rest : (forall line, In line out -> ~ begins_with ">>>" line /\ ~ empty_line line) ->
  (wanted = false -> forall line, hd_error out = Some line -> ~ begins_with "..." line) ->
  exists wanted', find_examples (Some (Found src w, wanted)) (map (fun line => List.repeat " "%char n ++ line) out ++ rest) =
    find_examples (Some (Found src (w ++ map (fun line => List.repeat " "%char n ++ line) out), wanted')) rest.
Proof.
  revert w wanted. induction out as [|line out IH]; intros w wanted A F; cbn [map List.app]; [exists wanted; now rewrite app_nil_r|].
  destruct (IH (w ++ [List.repeat " "%char n ++ line]) true) as [w' IH']; [intros l I; apply A; now right|discriminate|]. exists w'.
  rewrite <- app_assoc in IH'. cbn [List.app] in IH'. rewrite <- IH'. cbn [find_examples].
  destruct (A line (or_introl eq_refl)) as [A1 A2].
  rewrite (not_true _ _ (ps1_iff _)) by (intros B; now apply begins_indented in B; [|exact gt_mark]).
  assert (E : negb wanted && is_ps2 (List.repeat " "%char n ++ line) = false).
  { destruct wanted; [reflexivity|]. cbn. apply (not_true _ _ (ps2_iff _)). intros B. apply begins_indented in B; [|exact dot_mark]. now apply (F eq_refl line). }
  rewrite E, (not_true _ _ (blank_iff _)) by (intros B; now apply empty_indented in B). reflexivity.
Qed.
Lemma find_close e w l p : separate p l -> (exists i f m o, p = Shown i f m o) -> well_written l ->
  find_examples (Some (e, w)) (flat_map written_lines l) = e :: find_examples None (flat_map written_lines l).
Proof.
  intros S (i & f & m & o & ->) W. destruct l as [|[line|i' f' m' o'] l]; cbn [flat_map written_lines List.app]; [reflexivity| |].
  - destruct W as (W & _ & _). cbn in S, W. cbn [find_examples]. rewrite (not_true _ _ (ps1_iff _) W).
    assert (E : is_ps2 line = false).
    { destruct S as [n ->]. unfold is_ps2. pose proof (after_spaces n []) as A. rewrite app_nil_r in A. now rewrite A. }
    rewrite E, andb_false_r, (proj2 (blank_iff _) S). reflexivity.
  - cbn [find_examples]. rewrite typed_ps1. reflexivity.
Qed.
Lemma find_all l : well_written l -> find_examples None (flat_map written_lines l) = flat_map raw l.
Proof.
  induction l as [|p l IH]; [reflexivity|]. intros (P & S & W). specialize (IH W). destruct p as [line|i f m o]; cbn [flat_map written_lines raw List.app].
  - cbn [find_examples]. cbn in P. now rewrite (not_true _ _ (ps1_iff _) P).
  - cbn [find_examples]. rewrite typed_ps1. cbn [List.app]. rewrite <- app_assoc, find_more. destruct P as [P1 P2].
    destruct (find_out i o ([typed i ">>>" f] ++ map (typed i "...") m) [] false (flat_map written_lines l) P1 (fun _ => P2)) as [w ->].
    rewrite (find_close _ _ l (Shown i f m o) S) by (now (try exact W; eexists _, _, _, _)). rewrite IH. reflexivity.
Qed.

Lemma typed_blank n p line : List.length (T p) = 3%nat -> prompt_blank n (typed n p line) = true.
Proof.
  intros L. unfold prompt_blank, typed. rewrite skipn_spaces. destruct (T p) as [|a [|b [|c [|]]]]; try discriminate L. destruct line; reflexivity.
Qed.
Lemma typed_skip n p line : List.length (T p) = 3%nat -> skipn (n + 4) (typed n p line) = line.
Proof.
  intros L. unfold typed. rewrite skipn_spaces. destruct (T p) as [|a [|b [|c [|]]]]; try discriminate L. destruct line; reflexivity.
Qed.
Lemma starts_spaces n p s : starts_with (spaces n ++ p) (List.repeat " "%char n ++ s) = starts_with p s.
Proof. unfold spaces. induction n as [|n IH]; [reflexivity|exact IH]. Qed.
Lemma indent_typed n line : indent_of (typed n ">>>" line) = n.
Proof. unfold typed. rewrite indent_spaces. cbn. lia. Qed.
Definition as_example (x : list text * list text) : example := Ex (fst x) (snd x).
Lemma parse_raw l : mapM parse_example (flat_map raw l) = Ok (map as_example (shown_of l)).
Proof.
  induction l as [|[line|n f m o] l IH]; [reflexivity|exact IH|].
  cbn [flat_map raw List.app shown_of mapM map]. unfold shown_of in IH.
  assert (E : parse_example (Found (typed n ">>>" f :: map (typed n "...") m) (map (fun line => List.repeat " "%char n ++ line) o)) = Ok (Ex (f :: m) o)).
  { unfold parse_example. cbn [f_source f_want forallb tl map]. rewrite indent_typed, typed_blank by reflexivity.
    assert (A : forallb (prompt_blank n) (map (typed n "...") m) = true) by (apply forallb_forall; intros x (y & <- & _)%in_map_iff; now apply typed_blank).
    rewrite A.
    assert (B : forallb (prefixed (spaces n ++ T ".")) (map (typed n "...") m) = true).
    { apply forallb_forall. intros x (y & <- & _)%in_map_iff. unfold prefixed, typed.
      destruct (List.repeat " "%char n ++ T "..." ++ _) eqn:Q; [reflexivity|]. rewrite <- Q, starts_spaces. reflexivity. }
    rewrite B.
    assert (C : forallb (prefixed (spaces n)) (map (fun line => List.repeat " "%char n ++ line) o) = true).
    { apply forallb_forall. intros x (y & <- & _)%in_map_iff. unfold prefixed. destruct (List.repeat " "%char n ++ y) eqn:Q; [reflexivity|].
      rewrite <- Q. pose proof (starts_spaces n [] y) as S. now rewrite app_nil_r in S. }
    rewrite C. cbn [negb andb]. rewrite typed_skip by reflexivity. do 3 f_equal.
    - rewrite map_map. rewrite (map_ext _ (fun x => x)), map_id; [reflexivity|]. intros x. now apply typed_skip.
    - rewrite map_map. rewrite (map_ext _ (fun x => x)), map_id; [reflexivity|]. intros x. replace n with (n + 0)%nat at 1 by lia. apply skipn_spaces. }
  rewrite E. cbn [bind]. rewrite IH. reflexivity.
Qed.
Lemma split_single c s : ~ In c s -> split_char c s = [s].
Proof.
  induction s as [|x s IH]; [reflexivity|]. intros N. cbn [split_char]. rewrite IH by (intros I; apply N; now right).
  destruct (Ascii.eqb_spec x c) as [->|]; [|reflexivity]. destruct N. now left.
Qed.
Lemma split_join c l : l <> [] -> (forall x, In x l -> ~ In c x) -> split_char c (join [c] l) = l.
Proof.
  induction l as [|x l IH]; [contradiction|]. intros _ N. destruct l as [|y l]; [apply split_single, N; now left|].
  change (join [c] (x :: y :: l)) with (x ++ c :: join [c] (y :: l)). rewrite split_app, IH, split_single; [reflexivity|apply N; now left|discriminate|]. intros z I. apply N. now right.
Qed.
Lemma lines_nonempty l : l <> [] -> flat_map written_lines l <> [].
Proof. destruct l as [|[line|n f m o] l]; [contradiction|discriminate|discriminate]. Qed.
Lemma read_doc doc l : reads doc l -> get_examples doc = Ok (map as_example (shown_of l)).
Proof.
  intros (N & W & O & ->). unfold get_examples. change newline with (z2b 10). rewrite split_join.
  - rewrite find_all by exact W. apply parse_raw.
  - now apply lines_nonempty.
  - intros x (p & I & J)%in_flat_map. now apply (O p).
Qed.
