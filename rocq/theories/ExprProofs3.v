From Coq Require Import ZArith List Ascii String Bool Lia.
From Verif Require Import PyBase PyFacts PyInt PyIntFacts Platform IntModel IntProofs CallProofs RegexModel RegexFacts RegexSub PyEval ExprModel ExprSpec PyEvalProofs MapProofs ExprProofs ExprProofs2.
Import ListNotations.
Open Scope Z_scope.

(** ** Characters outside the matches are kept. *)
Lemma sub_keeps r f (Q : ascii -> Prop) : (forall b s m, match_at r (b, s) = Some m -> Forall Q (m_text m)) ->
  forall fuel b s t, sub_aux fuel r f b s = Ok t -> forall c, In c s -> Q c \/ In c t.
Proof.
  intros Hq. assert (forall s b m, search_from r b s = Some m -> Forall Q (m_text m)) as Hs.
  { induction s as [|c s IH]; intros b m; cbn [search_from]; (destruct (match_at r (b, _)) as [m'|] eqn:E; [intros [= <-]; eapply Hq; exact E|]); [discriminate|apply IH]. }
  induction fuel as [|fuel IH]; intros b s t; cbn [sub_aux]; [intros [= <-]; auto|].
  destruct (search_from r b s) as [m|] eqn:E; [|intros [= <-]; auto]. pose proof (Hs _ _ _ E) as Hm. apply search_inv in E as (pre & E1 & E2). destruct (f m) as [u|e]; [|discriminate]. cbn [bind].
  destruct (sub_aux fuel r f (rev (m_text m) ++ rev (m_before m)) (m_after m)) as [v|e] eqn:Es; [|discriminate]. cbn [bind]. intros [= <-].
  replace (skipn (List.length b) (m_before m)) with pre. 2:{ rewrite E1, <- (rev_length b), skipn_app, skipn_all, Nat.sub_diag. reflexivity. }
  subst s. intros c Hc. rewrite !in_app_iff in *. rewrite Forall_forall in Hm. destruct Hc as [Hc|[Hc|Hc]]; [auto|auto|]. destruct (IH _ _ _ Es c Hc); auto.
Qed.
Lemma match_text r b s m (Q : text -> Prop) : (forall p c (k : pos -> caps -> option (pos * caps)) x, mat r p c k = Some x -> exists w rest c', snd p = w ++ rest /\ k (rev w ++ fst p, rest) c' = Some x /\ Q w) ->
  match_at r (b, s) = Some m -> Q (m_text m).
Proof.
  unfold match_at. intros H. destruct (mat r (b, s) [] _) as [[[b' s'] c]|] eqn:E; [|discriminate]. intros [= <-]. apply H in E as (w & rest & c' & E & H' & HQ). cbn [fst snd] in *. injection H' as <- <- <-. subst s. cbn [m_text]. now rewrite firstn_part.
Qed.
Definition names (w : text) : Prop := Forall (fun c => is_name c = true) w.
Lemma hex_name c : is_hex_lower c = true -> is_name c = true.
Proof. intros H. pose proof (forall_ascii (fun c => negb (is_hex_lower c) || is_name c) ltac:(vm_compute; reflexivity) c) as F. cbv beta in F. now rewrite H in F. Qed.
Lemma lower_name c : is_lower c = true -> is_name c = true.
Proof. intros H. unfold is_name. now rewrite H. Qed.
Lemma char_inv {R} d b s c (k : pos -> caps -> option R) x : mat (rchar d) (b, s) c k = Some x -> exists s', s = d :: s' /\ k (d :: b, s') c = Some x.
Proof. cbn [mat rchar snd fst]. destruct s as [|y s]; [discriminate|]. destruct (Ascii.eqb_spec d y) as [<-|]; [|discriminate]. eauto. Qed.
Lemma hex_text b s m : match_at HEXADECIMAL_REGEX (b, s) = Some m -> names (m_text m).
Proof.
  apply match_text. intros [b0 s0] c k x H. unfold HEXADECIMAL_REGEX in H. cbn [T list_ascii_of_string rtext] in H.
  change (mat (rchar "0"%char) (b0, s0) c (fun p c => mat (rchar "x"%char) p c (fun p c => mat (rplus (RSet is_hex_lower)) p c k)) = Some x) in H.
  apply char_inv in H as (s1 & -> & H). apply char_inv in H as (s2 & -> & H). apply plus_set_inv in H as (w & rest & -> & _ & Hw & H). exists (T "0x" ++ w), rest, c. split; [reflexivity|]. split; [|constructor; [reflexivity|constructor; [reflexivity|]]; eapply Forall_impl; [|exact Hw]; exact hex_name].
  rewrite rev_app_distr, <- app_assoc. exact H.
Qed.
Lemma reg_text_inv {R} b s c (k : pos -> caps -> option R) x : mat (RCat (rplus (RSet is_lower)) (rplus (RSet is_name))) (b, s) c k = Some x ->
  exists w rest, s = w ++ rest /\ names w /\ k (rev w ++ b, rest) c = Some x.
Proof.
  intros H. change (mat (rplus (RSet is_lower)) (b, s) c (fun p c => mat (rplus (RSet is_name)) p c k) = Some x) in H. apply plus_set_inv in H as (w1 & r1 & -> & _ & H1 & H). apply plus_set_inv in H as (w2 & r2 & -> & _ & H2 & H).
  exists (w1 ++ w2), r2. rewrite app_assoc. split; [reflexivity|]. split; [|rewrite rev_app_distr, <- app_assoc; exact H]. apply Forall_app. split; [eapply Forall_impl; [|exact H1]; exact lower_name|exact H2].
Qed.
Lemma reg_text b s m : match_at REGISTER_REGEX (b, s) = Some m -> names (m_text m).
Proof.
  apply match_text. intros [b0 s0] c k x H. unfold REGISTER_REGEX in H. cbn [mat] in H.
  apply (reg_text_inv b0 s0 c) in H as (w & rest & -> & Hw & H). eexists w, rest, _. split; [reflexivity|]. split; [exact H|exact Hw].
Qed.
Lemma gdb_reg_text b s m : match_at GDB_REGISTER_REGEX (b, s) = Some m -> Forall (fun c => is_name c = true \/ c = "$"%char) (m_text m).
Proof.
  apply match_text. intros [b0 s0] c k x H. unfold GDB_REGISTER_REGEX in H. change (mat (rchar "$"%char) (b0, s0) c (fun p c => mat (RCat (rplus (RSet is_lower)) (rplus (RSet is_name))) p c k) = Some x) in H.
  apply char_inv in H as (s1 & -> & H). apply reg_text_inv in H as (w & rest & -> & Hw & H). exists (T "$" ++ w), rest, c. split; [reflexivity|]. split; [rewrite rev_app_distr, <- app_assoc; exact H|]. constructor; [auto|]. eapply Forall_impl; [|exact Hw]. auto.
Qed.
Lemma gdb_num_text b s m : match_at GDB_NUMBER_REGEX (b, s) = Some m -> names (m_text m).
Proof.
  apply match_text. intros [b0 s0] c k x H.
  change (match mat (RCat (rchar "0"%char) (rchar "x"%char)) (b0, s0) c (fun p c => mat (rplus (RSet is_hex_lower)) p c k) with Some y => Some y | None => mat (rplus (RSet is_hex_lower)) (b0, s0) c k end = Some x) in H.
  destruct (mat (RCat _ _) _ _ _) as [y|] eqn:E.
  - injection H as <-. change (mat (rchar "0"%char) (b0, s0) c (fun p c => mat (rchar "x"%char) p c (fun p c => mat (rplus (RSet is_hex_lower)) p c k)) = Some y) in E. apply char_inv in E as (s1 & -> & E). apply char_inv in E as (s2 & -> & E). apply plus_set_inv in E as (w & rest & -> & _ & Hw & H). exists (T "0x" ++ w), rest, c. split; [reflexivity|].
    split; [rewrite rev_app_distr, <- app_assoc; exact H|]. constructor; [reflexivity|constructor; [reflexivity|]]. eapply Forall_impl; [|exact Hw]; exact hex_name.
  - apply plus_set_inv in H as (w & rest & -> & _ & Hw & H). exists w, rest, c. split; [reflexivity|]. split; [exact H|]. eapply Forall_impl; [|exact Hw]; exact hex_name.
Qed.
Lemma parseExpression_accepts eval getreg s v : parseExpression eval getreg s = Ok v -> s <> [] /\ Forall (fun c => is_name c = true \/ is_digit c = true \/ In c (T "()<>+*/&-")) (lower (strip s)).
Proof.
  unfold parseExpression. cbv zeta. destruct (contains (T " ") (strip s)); [discriminate|].
  destruct (re_sub HEXADECIMAL_REGEX replaceHexadecimal (lower (strip s))) as [s1|x] eqn:E1; cbn [bind]; [|discriminate]. destruct (re_sub REGISTER_REGEX (readRegister getreg) s1) as [s2|x] eqn:E2; cbn [bind]; [|discriminate].
  destruct (re_match EXPR_REGEX s2) as [m|] eqn:Em; [|discriminate]. intros _.
  assert (no_nl s1) as N1. { unfold re_sub in E1. apply sub_no_nl in E1 as [E1 _]; [exact E1|exact replace_no_nl|apply lower_no_nl, strip_no_nl]. }
  assert (no_nl s2) as N2. { unfold re_sub in E2. apply sub_no_nl in E2 as [E2 _]; [exact E2| |exact N1]. intros m' t. unfold readRegister. destruct (group 1 (m_groups m')) as [name|]; [|discriminate]. destruct (getreg name); cbn [bind]; [|discriminate]. intros [= <-]. left. apply str_int_no_nl. }
  apply expr_regex_inv in Em as [Hne Hs]; [|exact N2]. split; [intros ->; vm_compute in E1; injection E1 as <-; vm_compute in E2; congruence|].
  apply Forall_forall. intros c Hc. unfold re_sub in E1, E2. destruct (sub_keeps _ _ (fun c => is_name c = true) hex_text _ _ _ _ E1 c Hc) as [H|H]; [auto|].
  destruct (sub_keeps _ _ (fun c => is_name c = true) reg_text _ _ _ _ E2 c H) as [H'|H']; [auto|]. right. unfold safe_text in Hs. rewrite Forall_forall in Hs. auto.
Qed.
Lemma parseInteger_accepts p eval getreg read s v : parseInteger p eval getreg read s = Ok v -> s <> [] /\ Forall (fun c => is_name c = true \/ c = "$"%char \/ is_digit c = true \/ In c (T "()<>+*/&-")) (lower (strip s)).
Proof.
  unfold parseInteger. cbv zeta. destruct (contains (T " ") (strip s)); [discriminate|].
  destruct (re_sub GDB_REGISTER_REGEX (gdb_readRegister getreg) (lower (strip s))) as [s1|x] eqn:E1; cbn [bind]; [|discriminate]. destruct (re_sub GDB_NUMBER_REGEX replaceHexadecimal s1) as [s2|x] eqn:E2; cbn [bind]; [|discriminate].
  destruct (re_match EXPR_REGEX s2) as [m|] eqn:Em; [|discriminate]. intros _.
  assert (no_nl s1) as N1. { unfold re_sub in E1. apply sub_no_nl in E1 as [E1 _]; [exact E1| |apply lower_no_nl, strip_no_nl]. intros m' t. unfold gdb_readRegister. destruct (getreg _); cbn [bind]; [|discriminate]. intros [= <-]. left. apply str_int_no_nl. }
  assert (no_nl s2) as N2. { unfold re_sub in E2. apply sub_no_nl in E2 as [E2 _]; [exact E2|exact replace_no_nl|exact N1]. }
  apply expr_regex_inv in Em as [Hne Hs]; [|exact N2]. split; [intros ->; vm_compute in E1; injection E1 as <-; vm_compute in E2; congruence|].
  apply Forall_forall. intros c Hc. unfold re_sub in E1, E2. destruct (sub_keeps _ _ _ gdb_reg_text _ _ _ _ E1 c Hc) as [[H|H]|H]; [auto|auto|].
  destruct (sub_keeps _ _ (fun c => is_name c = true) gdb_num_text _ _ _ _ E2 c H) as [H'|H']; [auto|]. right. right. unfold safe_text in Hs. rewrite Forall_forall in Hs. auto.
Qed.
Lemma parseInteger_value_mod p getreg reg read e s : all_leaves gdb_ok e -> all_leaves (gdb_known getreg reg) e -> lower (strip s) = print gdb_text 0 e ->
  parseInteger p py_eval getreg read s = do v <- value (map_leaves (gdb_value reg) e); do n <- number v; Ok (n mod 2 ^ wbits p).
Proof. intros. erewrite parseInteger_value by eassumption. destruct (value _) as [v|]; cbn [bind]; [|reflexivity]. destruct (number v); cbn [bind]; [now rewrite truncate_word_mod|reflexivity]. Qed.
Lemma parseInteger_pointer_mod p getreg reg read e s : all_leaves gdb_ok e -> all_leaves (gdb_known getreg reg) e -> lower (strip s) = T "*" ++ print gdb_text 0 e ->
  parseInteger p py_eval getreg read s = do v <- value (map_leaves (gdb_value reg) e); do n <- number v; read (n mod 2 ^ wbits p).
Proof. intros. erewrite parseInteger_pointer by eassumption. destruct (value _) as [v|]; cbn [bind]; [|reflexivity]. destruct (number v); cbn [bind]; [now rewrite truncate_word_mod|reflexivity]. Qed.
(** ** Where the errors come from *)
Lemma sub_error_at r f : forall fuel b s e, sub_aux fuel r f b s = Err e -> exists b s m, match_at r (b, s) = Some m /\ f m = Err e.
Proof.
  assert (forall s b m, search_from r b s = Some m -> exists b s, match_at r (b, s) = Some m) as Hs.
  { induction s as [|c s IH]; intros b m; cbn [search_from]; (destruct (match_at r (b, _)) as [m'|] eqn:E; [intros [= <-]; eauto|]); [discriminate|apply IH]. }
  induction fuel as [|fuel IH]; intros b s e; cbn [sub_aux]; [discriminate|]. destruct (search_from r b s) as [m|] eqn:Em; [|discriminate]. destruct (f m) as [u|x] eqn:E; cbn [bind].
  - destruct (sub_aux fuel r f _ _) as [v|x] eqn:Es; cbn [bind]; [discriminate|]. intros [= <-]. eauto.
  - intros [= <-]. apply Hs in Em as (b' & s' & Em). eauto.
Qed.
Lemma reg_group b s m : match_at REGISTER_REGEX (b, s) = Some m -> exists name, group 1 (m_groups m) = Some name.
Proof.
  unfold match_at, REGISTER_REGEX. cbn [mat]. match goal with |- match ?x with _ => _ end = _ -> _ => destruct x as [[[b' s'] c]|] eqn:E; [|discriminate] end. intros [= <-]. cbn [m_groups].
  apply (reg_text_inv b s []) in E as (w & rest & _ & _ & E). injection E as _ _ <-. cbn. eauto.
Qed.
Lemma parseExpression_origin eval getreg s e : parseExpression eval getreg s = Err e ->
  e = EValueError \/ (exists name, getreg name = Err e) \/ exists t, safe_text t /\ eval t = Err e /\ e <> ESyntaxError.
Proof.
  unfold parseExpression. cbv zeta. destruct (contains (T " ") (strip s)); [intros [= <-]; auto|].
  destruct (re_sub HEXADECIMAL_REGEX replaceHexadecimal (lower (strip s))) as [s1|x] eqn:E1; cbn [bind]; [|intros [= <-]; apply sub_error in E1 as (m & E1); apply replace_error in E1; auto].
  destruct (re_sub REGISTER_REGEX (readRegister getreg) s1) as [s2|x] eqn:E2; cbn [bind].
  2:{ intros [= <-]. apply sub_error_at in E2 as (b & s0 & m & Em & E2). unfold readRegister in E2. apply reg_group in Em as (name & Em). rewrite Em in E2. destruct (getreg name) eqn:Eg; cbn [bind] in E2; [discriminate|]. injection E2 as <-. eauto. }
  destruct (re_match EXPR_REGEX s2) as [m|] eqn:Em; [|intros [= <-]; auto]. apply expr_regex_inv in Em as [_ Hs].
  - apply double_slash_safe in Hs. destruct (eval (double_slash s2)) as [v|x] eqn:Ev; cbn [syntax_is_value]; [discriminate|].
    destruct x; intros [= <-]; auto; right; right; exists (double_slash s2); (split; [exact Hs|split; [exact Ev|discriminate]]).
  - unfold re_sub in E1, E2. apply sub_no_nl in E1 as [E1 _]; [|exact replace_no_nl|apply lower_no_nl, strip_no_nl]. apply sub_no_nl in E2 as [E2 _]; [exact E2| |exact E1].
    intros m' t. unfold readRegister. destruct (group 1 (m_groups m')) as [name|]; [|discriminate]. destruct (getreg name); cbn [bind]; [|discriminate]. intros [= <-]. left. apply str_int_no_nl.
Qed.
Lemma parseInteger_origin p eval getreg read s e : parseInteger p eval getreg read s = Err e ->
  e = EValueError \/ (exists name, getreg name = Err e) \/ (exists a, 0 <= a < 2 ^ wbits p /\ read a = Err e) \/
  exists t, safe_text t /\ (eval t = Err e /\ e <> ESyntaxError \/ eval t = Ok VTuple /\ e = ETypeError).
Proof.
  unfold parseInteger. cbv zeta. destruct (contains (T " ") (strip s)); [intros [= <-]; auto|].
  destruct (re_sub GDB_REGISTER_REGEX (gdb_readRegister getreg) (lower (strip s))) as [s1|x] eqn:E1; cbn [bind].
  2:{ intros [= <-]. apply sub_error in E1 as (m & E1). unfold gdb_readRegister in E1. destruct (getreg (skipn 1 (m_text m))) eqn:Eg; cbn [bind] in E1; [discriminate|]. injection E1 as <-. eauto 10. }
  destruct (re_sub GDB_NUMBER_REGEX replaceHexadecimal s1) as [s2|x] eqn:E2; cbn [bind]; [|intros [= <-]; apply sub_error in E2 as (m & E2); apply replace_error in E2; auto].
  destruct (re_match EXPR_REGEX s2) as [m|] eqn:Em; [|intros [= <-]; auto]. apply expr_regex_inv in Em as [_ Hs].
  - assert (safe_text (if starts_with (T "*") (double_slash s2) then skipn 1 (double_slash s2) else double_slash s2)) as H.
    { apply double_slash_safe in Hs. destruct (starts_with _ _); [|exact Hs]. destruct (double_slash s2) as [|c t]; [constructor|]. inversion Hs; assumption. }
    revert H. set (t := if starts_with _ _ then _ else _). clearbody t. intros Ht. destruct (eval t) as [w|x] eqn:Ev; cbn [bind].
    + unfold truncate_value. destruct w as [z|[]|]; cbn [as_int syntax_is_value bind]; [..|intros [= <-]; right; right; right; exists t; auto];
        (destruct (starts_with _ _); [|discriminate]; intros H; right; right; left; eexists; (split; [apply truncate_range|exact H])).
    + destruct x; cbn [syntax_is_value bind]; intros [= <-]; auto; right; right; right; exists t; (split; [exact Ht|left; split; [exact Ev|discriminate]]).
  - unfold re_sub in E1, E2. apply sub_no_nl in E1 as [E1 _]; [| |apply lower_no_nl, strip_no_nl].
    + apply sub_no_nl in E2 as [E2 _]; [exact E2|exact replace_no_nl|exact E1].
    + intros m' t. unfold gdb_readRegister. destruct (getreg _); cbn [bind]; [|discriminate]. intros [= <-]. left. apply str_int_no_nl.
Qed.
