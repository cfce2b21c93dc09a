From Coq Require Import ZArith List Ascii String Bool Lia.
From Verif Require Import PyBase PyFacts PyInt PyIntFacts Platform IntModel IntProofs CallProofs RegexModel RegexFacts RegexSub PyEval ExprModel ExprSpec PyEvalProofs MapProofs ExprProofs.
Import ListNotations.
Open Scope Z_scope.

(** ** Texts of expressions *)
Definition plain (c : ascii) : Prop := is_space c = false /\ c <> "$"%char.
Lemma print_Forall {A} (Q : ascii -> Prop) (leaf : A -> text) e : (forall c, sym c -> Q c) -> forall k, all_leaves (fun a => Forall Q (leaf a)) e -> Forall Q (print leaf k e).
Proof.
  intros Hs. assert (forall w, forallb (fun c => char_in (T "()<>+*/&-") c) w = true -> Forall Q w) as Hw by (intros w H; apply syms in H; eapply Forall_impl; [|exact H]; auto).
  assert (forall b t, Forall Q t -> Forall Q (parens b t)) as Hp. { intros [] t Ht; [|exact Ht]. cbv beta iota delta [parens]. rewrite !Forall_app. repeat split; [now apply Hw|exact Ht|now apply Hw]. }
  induction e as [a| |e IH|m e IH|o a IHa b IHb]; intros k H; cbn [print all_leaves] in *; [exact H|now apply Hw|apply Hp; auto|apply Hp..].
  - rewrite Forall_app. split; [destruct m; now apply Hw|auto].
  - destruct H. rewrite !Forall_app. repeat split; auto. destruct o; now apply Hw.
Qed.
Lemma all_leaves_impl {A} (P Q : A -> Prop) e : (forall a, P a -> Q a) -> all_leaves P e -> all_leaves Q e.
Proof. intros H. induction e as [a| |e IH|m e IH|o a IHa b IHb]; cbn; auto. intros []; auto. Qed.
Lemma all_leaves_map {A B} (f : A -> B) (P : B -> Prop) e : all_leaves P (map_leaves f e) <-> all_leaves (fun a => P (f a)) e.
Proof. induction e as [a| |e IH|m e IH|o a IHa b IHb]; cbn; tauto. Qed.
Lemma print_nonempty {A} (leaf : A -> text) e : (forall a, leaf a <> []) -> forall k, print leaf k e <> [].
Proof.
  intros H. assert (forall b t, t <> [] -> parens b t <> []) as Hp by (intros [] t Ht; [discriminate|exact Ht]).
  induction e as [a| |e IH|m e IH|o a IHa b IHb]; intros k; cbn [print]; [auto|discriminate|apply Hp; auto|apply Hp; destruct m; discriminate|apply Hp]. intros E. apply app_eq_nil in E as [E _]. eapply IHa; exact E.
Qed.
Lemma double_slash_app a b : double_slash (a ++ b) = double_slash a ++ double_slash b.
Proof. unfold double_slash. apply flat_map_app. Qed.
Lemma double_slash_none w : Forall (fun c => c <> "/"%char) w -> double_slash w = w.
Proof. induction 1 as [|c w Hc Hw IH]; [reflexivity|]. unfold double_slash in *. cbn [flat_map]. rewrite (proj2 (Ascii.eqb_neq _ _) Hc), IH. reflexivity. Qed.
Lemma digits_no_slash n : 0 <= n -> Forall (fun c => c <> "/"%char) (digits 10 n).
Proof. intros H. eapply Forall_impl; [|exact (digits_all n H)]. intros c Hc ->. discriminate. Qed.
Lemma python_print {A} (v : A -> Z) e : all_leaves (fun a => 0 <= v a) e -> double_slash (print (fun a => digits 10 (v a)) 0 e) = python_text (map_leaves v e).
Proof.
  unfold python_text. generalize 0%nat as k.
  assert (forall b t l, double_slash t = flat_map token_text l -> double_slash (parens b t) = flat_map token_text (wrap b l)) as Hp.
  { intros [] t l H; [|exact H]. change (parens true t) with (T "(" ++ t ++ T ")"). unfold wrap. cbn [flat_map]. rewrite !double_slash_app, H, flat_map_app. reflexivity. }
  induction e as [a| |e IH|m e IH|o a IHa b IHb]; intros k H; cbn [print map_leaves toks all_leaves] in *.
  - cbn [flat_map token_text]. rewrite app_nil_r. apply double_slash_none. now apply digits_no_slash.
  - reflexivity.
  - apply Hp. now apply IH.
  - apply Hp. rewrite double_slash_app, IH by exact H. destruct m; reflexivity.
  - destruct H as [Ha Hb]. apply Hp. rewrite !double_slash_app, IHa, IHb by assumption. rewrite flat_map_app. cbn [flat_map]. f_equal. f_equal. destruct o; reflexivity.
Qed.
Lemma digits_safe n : 0 <= n -> safe_text (digits 10 n).
Proof. intros H. eapply Forall_impl; [|exact (digits_all n H)]. auto. Qed.
Lemma print_safe {A} (v : A -> Z) e k : all_leaves (fun a => 0 <= v a) e -> safe_text (print (fun a => digits 10 (v a)) k e).
Proof. intros H. apply print_Forall; [unfold sym; auto|]. eapply all_leaves_impl; [|exact H]. intros a Ha. now apply digits_safe. Qed.
Lemma no_space s : Forall (fun c => is_space c = false) (lower s) -> contains (T " ") s = false.
Proof.
  intros H. unfold contains. destruct (find_sub (T " ") s) as [i|] eqn:E; [|reflexivity]. exfalso. apply find_sub_some in E as (a & b & -> & _).
  unfold lower in H. rewrite !map_app, !Forall_app in H. destruct H as (_ & H & _). cbn in H. inversion H; discriminate.
Qed.
Lemma name_plain c : is_name c = true -> plain c.
Proof.
  intros H. pose proof (forall_ascii (fun c => negb (is_name c) || (negb (is_space c) && negb (Ascii.eqb c "$")))%char ltac:(vm_compute; reflexivity) c) as F. cbv beta in F. rewrite H in F. cbn [negb orb] in F.
  apply andb_prop in F as [F1 F2]. apply negb_true_iff in F1, F2. split; [exact F1|now apply Ascii.eqb_neq].
Qed.
Lemma reg_plain name : reg_name name -> Forall plain name.
Proof.
  intros (a & b & -> & _ & _ & Ha & Hb). apply Forall_app. split; [eapply Forall_impl; [|exact Ha]|eapply Forall_impl; [|exact Hb]]; intros c Hc; apply name_plain; unfold is_name; [now rewrite Hc|exact Hc].
Qed.
Lemma hex_digits_plain n : 0 <= n -> Forall plain (digits 16 n).
Proof. intros H. eapply Forall_impl; [|exact (hex_all n H)]. intros c Hc. apply hex_plain in Hc. split; tauto. Qed.
Lemma dec_hex n : 0 <= n -> Forall (fun c => is_hex_lower c = true) (digits 10 n).
Proof. intros H. eapply Forall_impl; [|exact (digits_all n H)]. intros c Hc. now apply digit_hex. Qed.
Lemma dec_digits_plain n : 0 <= n -> Forall plain (digits 10 n).
Proof. intros H. eapply Forall_impl; [|exact (dec_hex n H)]. intros c Hc. apply hex_plain in Hc. split; tauto. Qed.
Lemma literal_plain l : literal_ok l -> Forall plain (literal_text l).
Proof.
  destruct l as [n|n|name]; cbn [literal_ok literal_text]; intros H; [now apply dec_digits_plain| |now apply reg_plain]. apply Forall_app. split; [|now apply hex_digits_plain].
  repeat constructor; discriminate.
Qed.
Lemma sym_space c : sym c -> is_space c = false.
Proof. intros H. now apply sym_facts in H. Qed.

(** ** parseExpression *)
Lemma value_not_syntax e : (forall v, value e = Err v -> v <> ESyntaxError) /\ match e with Bin _ _ m => forall v, value m = Err v -> v <> ESyntaxError | _ => True end.
Proof.
  assert (forall a v, number a = Err v -> v <> ESyntaxError) as Hn by (intros [z|[]|] v; cbn; congruence).
  assert (forall o x y v, arith o x y = Err v -> v <> ESyntaxError) as Ha.
  { intros o x y v. destruct o; cbn; repeat match goal with |- context [if ?c then _ else _] => destruct c end; congruence. }
  assert (forall o a b v, bin_value o a b = Err v -> v <> ESyntaxError) as Hb.
  { intros o a b v. destruct o, a as [x|[]|], b as [y|[]|]; cbn [bin_value number bind]; try discriminate; try (intros [= <-]; discriminate); apply Ha. }
  induction e as [a| |e [IH _]|m e [IH _]|o a [IHa IHm] b [IHb _]]; (split; [|try exact I; try exact IHb]); intros v; try discriminate.
  - apply IH.
  - cbn [value]. destruct (value e) as [w|]; cbn [bind]; [|intros [= <-]; auto]. destruct (number w) eqn:E; cbn [bind]; [discriminate|]. intros [= <-]. eauto.
  - assert (forall x, (forall v, value x = Err v -> v <> ESyntaxError) -> (do x <- value x; do y <- value b; bin_value o x y) = Err v -> v <> ESyntaxError) as Hs.
    { intros x Hx. destruct (value x) as [w|]; cbn [bind]; [|intros [= <-]; auto]. destruct (value b) as [y|]; cbn [bind]; [|intros [= <-]; auto]. apply Hb. }
    assert (value (Bin o a b) = match a with Bin o' _ m => if compares o && compares o' then do first <- value a; match first with Bool false => Ok (Bool false) | _ => do x <- value m; do y <- value b; bin_value o x y end else do x <- value a; do y <- value b; bin_value o x y | _ => do x <- value a; do y <- value b; bin_value o x y end) as -> by (destruct a; reflexivity).
    destruct a as [z| |a|m a|o' a m]; try (apply Hs; exact IHa). destruct (compares o && compares o'); [|apply Hs; exact IHa].
    destruct (value (Bin o' a m)) as [[z|[]|]|]; cbn [bind]; try (apply Hs; exact IHm); [discriminate|]. intros [= <-]. auto.
Qed.
Lemma parseExpression_value getreg reg s e : lower (strip s) = print literal_text 0 e -> all_leaves literal_ok e ->
  all_leaves names_ok e -> all_leaves (known getreg reg) e ->
  parseExpression py_eval getreg s = (do v <- value (map_leaves (literal_value reg) e); Ok (py v)).
Proof.
  intros Hs Hl Hx Hk. unfold parseExpression. cbv zeta.
  assert (all_leaves (fun l => 0 <= literal_value reg l) e) as Hv. { clear -Hl Hk. induction e as [a| |e IH|m e IH|o a IHa b IHb]; cbn in *; [destruct a; cbn in *; tauto|auto..|]. destruct Hl, Hk. auto. }
  rewrite no_space. 2:{ rewrite Hs. apply print_Forall; [exact sym_space|]. eapply all_leaves_impl; [|exact Hl]. intros l Hok. eapply Forall_impl; [|exact (literal_plain l Hok)]. intros c [H _]. exact H. }
  rewrite Hs.
  rewrite (re_sub_print _ _ literal_text literal_1 (fun l => literal_ok l /\ names_ok l)).
  2:{ intros b c t Hc. apply hex_none. left. now apply sym_facts in Hc. }
  2:{ reflexivity. }
  2:{ intros l [H1 H2]. apply hex_step; [exact H1|]. intros name ->. exact H2. }
  2:{ clear -Hl Hx. induction e as [a| |e IH|m e IH|o a IHa b IHb]; cbn in *; [auto..|]. destruct Hl, Hx. auto. }
  cbn [bind]. rewrite (re_sub_print _ _ literal_1 (literal_2 reg) (fun l => literal_ok l /\ known getreg reg l)).
  2:{ intros b c t Hc. apply reg_none. now apply sym_facts in Hc. }
  2:{ reflexivity. }
  2:{ intros l [H1 H2]. now apply reg_step. }
  2:{ clear -Hl Hk. induction e as [a| |e IH|m e IH|o a IHa b IHb]; cbn in *; [auto..|]. destruct Hl, Hk. auto. }
  cbn [bind]. unfold literal_2. destruct (expr_regex_ok (print (fun l => digits 10 (literal_value reg l)) 0 e)) as (m & ->); [apply print_nonempty; intros a; apply digits_nonempty|now apply print_safe|].
  rewrite python_print by exact Hv. rewrite eval_text by now apply all_leaves_map.
  destruct (value (map_leaves (literal_value reg) e)) as [x|x] eqn:E; cbn [bind]; [reflexivity|]. apply (proj1 (value_not_syntax _)) in E. destruct x; try reflexivity. congruence.
Qed.

(** ** parseInteger *)
Definition gdb_1 (reg : text -> Z) (l : gdb_literal) : text :=
  match l with GLit (Reg name) => digits 10 (reg name) | l => gdb_text l end.
Lemma gdb_reg_none b c s : c <> "$"%char -> match_at GDB_REGISTER_REGEX (b, c :: s) = None.
Proof. intros H. unfold match_at. cbn [GDB_REGISTER_REGEX mat rchar snd fst]. destruct (Ascii.eqb_spec "$"%char c) as [<-|]; [congruence|reflexivity]. Qed.
Lemma gdb_reg_match b name s : reg_name name -> stops is_name s -> exists m, match_at GDB_REGISTER_REGEX (b, (T "$" ++ name) ++ s) = Some m /\ m_text m = T "$" ++ name.
Proof.
  intros (a & t & -> & Ha & Ht & Hfa & Hft) Hs.
  assert (mat GDB_REGISTER_REGEX (b, (T "$" ++ a ++ t) ++ s) [] (fun p c => Some (p, c)) = Some ((rev (a ++ t) ++ "$"%char :: b, s), [])) as E.
  { unfold GDB_REGISTER_REGEX. apply mat_cat. cbn [T list_ascii_of_string app]. apply mat_char. apply name_match; auto. }
  unfold match_at. rewrite E. eexists. split; [reflexivity|]. cbn [m_text snd]. apply (firstn_part (T "$" ++ a ++ t) s).
Qed.
Lemma gdb_reg_skip w : Forall plain w -> forall getreg b rest t, subs GDB_REGISTER_REGEX (gdb_readRegister getreg) (rev w ++ b) rest t -> subs GDB_REGISTER_REGEX (gdb_readRegister getreg) b (w ++ rest) (w ++ t).
Proof.
  intros Hw getreg b rest t Hs. apply subs_skips; [|exact Hs]. intros w1 c w2 ->. apply gdb_reg_none. rewrite Forall_app in Hw. destruct Hw as [_ Hw]. inversion Hw as [|? ? H _]; subst. apply H.
Qed.
Lemma gdb_reg_step getreg reg l : gdb_ok l -> gdb_known getreg reg l -> forall b rest t, ok_next rest ->
  subs GDB_REGISTER_REGEX (gdb_readRegister getreg) (rev (gdb_text l) ++ b) rest t -> subs GDB_REGISTER_REGEX (gdb_readRegister getreg) b (gdb_text l ++ rest) (gdb_1 reg l ++ t).
Proof.
  intros Hl Hk b rest t Hr Hs. destruct l as [[n|n|name]|n].
  - apply gdb_reg_skip; [|exact Hs]. now apply (literal_plain (Dec n)).
  - apply gdb_reg_skip; [|exact Hs]. now apply (literal_plain (Hex n)).
  - cbn [gdb_text gdb_1 gdb_ok gdb_known literal_ok known] in *. destruct (gdb_reg_match b name rest Hl) as (m & Hm & Ht); [apply next_stops; [intros c Hc; now apply sym_facts in Hc|exact Hr]|].
    eapply subs_match; [exact Hm|exact Ht|discriminate| |exact Hs]. unfold gdb_readRegister. rewrite Ht. change (skipn 1 (T "$" ++ name)) with name. destruct Hk as [-> Hk]. cbn [bind]. now rewrite str_int_nonneg.
  - apply gdb_reg_skip; [|exact Hs]. destruct Hl as [Hl _]. now apply hex_digits_plain.
Qed.
Lemma gdb_num_none b c s : is_hex_lower c = false -> match_at GDB_NUMBER_REGEX (b, c :: s) = None.
Proof.
  intros H. unfold match_at. cbn [GDB_NUMBER_REGEX mat rplus ropt rtext T list_ascii_of_string rchar snd fst]. destruct (Ascii.eqb_spec "0"%char c) as [<-|]; [discriminate|]. now rewrite H.
Qed.
Lemma gdb_num_plain b ds s : ds <> [] -> Forall (fun c => is_hex_lower c = true) ds -> ok_next s -> exists m, match_at GDB_NUMBER_REGEX (b, ds ++ s) = Some m /\ m_text m = ds.
Proof.
  intros Hn Hd Hs. assert (mat GDB_NUMBER_REGEX (b, ds ++ s) [] (fun p c => Some (p, c)) = Some ((rev ds ++ b, s), [])) as E.
  { change (match mat (rtext (T "0x")) (b, ds ++ s) [] (fun p c => mat (rplus (RSet is_hex_lower)) p c (fun p c => Some (p, c))) with Some y => Some y | None => mat (rplus (RSet is_hex_lower)) (b, ds ++ s) [] (fun p c => Some (p, c)) end = Some ((rev ds ++ b, s), [])).
    assert (mat (rtext (T "0x")) (b, ds ++ s) [] (fun p c => mat (rplus (RSet is_hex_lower)) p c (fun p c => Some (p, c))) = None) as ->.
    { cbn [mat rtext T list_ascii_of_string rchar]. destruct ds as [|c ds]; [congruence|]. cbn [app snd fst]. destruct (Ascii.eqb_spec "0"%char c) as [<-|]; [|reflexivity]. destruct ds as [|d ds]; cbn [app].
      - destruct s as [|d s]; [reflexivity|]. apply sym_facts in Hs. destruct (Ascii.eqb_spec "x"%char d) as [<-|]; [tauto|reflexivity].
      - inversion Hd as [|? ? _ Hd']; subst. inversion Hd' as [|? ? Hx _]; subst. apply hex_plain in Hx. destruct (Ascii.eqb_spec "x"%char d) as [<-|]; [tauto|reflexivity]. }
    apply mat_plus_set; auto. apply next_stops; [intros c Hc; now apply sym_facts in Hc|exact Hs]. }
  unfold match_at. rewrite E. eexists. split; [reflexivity|]. cbn [m_text snd]. apply firstn_part.
Qed.
Lemma gdb_num_0x b ds s : ds <> [] -> Forall (fun c => is_hex_lower c = true) ds -> ok_next s -> exists m, match_at GDB_NUMBER_REGEX (b, (T "0x" ++ ds) ++ s) = Some m /\ m_text m = T "0x" ++ ds.
Proof.
  intros Hn Hd Hs. assert (mat GDB_NUMBER_REGEX (b, (T "0x" ++ ds) ++ s) [] (fun p c => Some (p, c)) = Some ((rev ds ++ rev (T "0x") ++ b, s), [])) as E.
  { change (match mat (rtext (T "0x")) (b, (T "0x" ++ ds) ++ s) [] (fun p c => mat (rplus (RSet is_hex_lower)) p c (fun p c => Some (p, c))) with Some y => Some y | None => mat (rplus (RSet is_hex_lower)) (b, (T "0x" ++ ds) ++ s) [] (fun p c => Some (p, c)) end = Some ((rev ds ++ rev (T "0x") ++ b, s), [])).
    assert (mat (rtext (T "0x")) (b, (T "0x" ++ ds) ++ s) [] (fun p c => mat (rplus (RSet is_hex_lower)) p c (fun p c => Some (p, c))) = Some ((rev ds ++ rev (T "0x") ++ b, s), [])) as ->; [|reflexivity].
    rewrite <- app_assoc. cbn [T list_ascii_of_string rtext app]. apply mat_cat. apply mat_char. apply mat_char. apply mat_plus_set; auto. apply next_stops; [intros c Hc; now apply sym_facts in Hc|exact Hs]. }
  unfold match_at. rewrite E. eexists. split; [reflexivity|]. cbn [m_text snd]. apply (firstn_part (T "0x" ++ ds) s).
Qed.
Lemma no_x ds : Forall (fun c => is_hex_lower c = true) ds -> starts_with (T "0x") ds = false.
Proof.
  intros H. cbn [T list_ascii_of_string]. destruct H as [|c ds Hc H]; [reflexivity|]. cbn [starts_with]. destruct H as [|d ds Hd H]; [now rewrite andb_false_r|]. apply hex_plain in Hd. destruct (Ascii.eqb_spec "x"%char d) as [<-|]; [tauto|]. now rewrite andb_false_r.
Qed.
Lemma dec_no_af n : 0 <= n -> existsb is_af (digits 10 n) = false.
Proof.
  intros H. pose proof (digits_all n H) as Hd. induction Hd as [|c l Hc _ IH]; [reflexivity|]. cbn [existsb]. rewrite IH. apply digit_hex in Hc. destruct Hc as (_ & -> & _). reflexivity.
Qed.
Lemma gdb_num_step reg l : gdb_ok l -> 0 <= gdb_value reg l -> forall b rest t, ok_next rest ->
  subs GDB_NUMBER_REGEX replaceHexadecimal (rev (gdb_1 reg l) ++ b) rest t -> subs GDB_NUMBER_REGEX replaceHexadecimal b (gdb_1 reg l ++ rest) (digits 10 (gdb_value reg l) ++ t).
Proof.
  intros Hl Hv b rest t Hr Hs.
  assert (forall n, 0 <= n -> forall b, subs GDB_NUMBER_REGEX replaceHexadecimal (rev (digits 10 n) ++ b) rest t -> subs GDB_NUMBER_REGEX replaceHexadecimal b (digits 10 n ++ rest) (digits 10 n ++ t)) as Hdec.
  { intros n Hn b0 Hb. destruct (gdb_num_plain b0 (digits 10 n) rest) as (m & Hm & Ht); [apply digits_nonempty|now apply dec_hex|exact Hr|].
    eapply subs_match; [exact Hm|exact Ht|apply digits_nonempty| |exact Hb]. unfold replaceHexadecimal. rewrite Ht, no_x by now apply dec_hex. now rewrite dec_no_af. }
  destruct l as [[n|n|name]|n]; cbn [gdb_1 gdb_text literal_text gdb_value literal_value gdb_ok literal_ok] in *.
  - now apply Hdec.
  - destruct (gdb_num_0x b (digits 16 n) rest) as (m & Hm & Ht); [apply digits_nonempty|now apply hex_all|exact Hr|].
    eapply subs_match; [exact Hm|exact Ht|discriminate| |exact Hs]. unfold replaceHexadecimal. rewrite Ht. cbn [T list_ascii_of_string app starts_with skipn]. rewrite !Ascii.eqb_refl. cbn [andb].
    rewrite py_int_hex by exact Hl. cbn [bind]. now rewrite str_int_nonneg.
  - now apply Hdec.
  - destruct Hl as [Hn Haf0]. assert (existsb is_af (digits 16 n) = true) as Haf.
    { clear -Hn Haf0. pose proof (hex_all n Hn) as H. induction H as [|c l Hc _ IH]; [discriminate|]. cbn [existsb] in *. apply orb_true_iff in Haf0. apply orb_true_iff. destruct Haf0 as [E|E]; [left|right; auto].
      pose proof (forall_ascii (fun c => negb (is_hex_lower c) || negb (is_lower c) || is_af c) ltac:(vm_compute; reflexivity) c) as F. cbv beta in F. rewrite Hc, E in F. exact F. }
    destruct (gdb_num_plain b (digits 16 n) rest) as (m & Hm & Ht); [apply digits_nonempty|now apply hex_all|exact Hr|].
    eapply subs_match; [exact Hm|exact Ht|apply digits_nonempty| |exact Hs]. unfold replaceHexadecimal. rewrite Ht, no_x by now apply hex_all. rewrite Haf, py_int_hex by exact Hn. cbn [bind]. now rewrite str_int_nonneg.
Qed.
Lemma all_and {A} (P Q : A -> Prop) e : all_leaves P e -> all_leaves Q e -> all_leaves (fun a => P a /\ Q a) e.
Proof. induction e as [a| |e IH|m e IH|o a IHa b IHb]; cbn; [auto..|]. intros [] []. auto. Qed.
Lemma gdb_values getreg reg e : all_leaves gdb_ok e -> all_leaves (gdb_known getreg reg) e -> all_leaves (fun l => 0 <= gdb_value reg l) e.
Proof. intros H1 H2. eapply all_leaves_impl; [|exact (all_and _ _ _ H1 H2)]. intros [[n|n|name]|n]; cbn; tauto. Qed.
Lemma gdb_plain l : gdb_ok l -> Forall (fun c => is_space c = false) (gdb_text l).
Proof.
  assert (forall w, Forall plain w -> Forall (fun c => is_space c = false) w) as H by (intros w Hw; eapply Forall_impl; [|exact Hw]; intros c [Hc _]; exact Hc).
  destruct l as [[n|n|name]|n]; cbn [gdb_ok gdb_text]; intros Hl; [apply H; now apply (literal_plain (Dec n))|apply H; now apply (literal_plain (Hex n))| |apply H; now apply hex_digits_plain].
  constructor; [reflexivity|]. apply H. now apply reg_plain.
Qed.
(** The first character is not an asterisk. *)
Lemma print_first {A} (v : A -> Z) e : all_leaves (fun a => 0 <= v a) e -> forall k, starts_with (T "*") (double_slash (print (fun a => digits 10 (v a)) k e)) = false.
Proof.
  intros H. assert (forall s, match s with c :: _ => c <> "*"%char /\ c <> "/"%char | [] => True end -> starts_with (T "*") (double_slash s) = false) as Hs.
  { intros [|c s] Hc; [reflexivity|]. destruct Hc as [Hc1 Hc2]. unfold double_slash. cbn [flat_map]. rewrite (proj2 (Ascii.eqb_neq _ _) Hc2). cbn [app T list_ascii_of_string starts_with]. destruct (Ascii.eqb_spec "*"%char c); [congruence|reflexivity]. }
  intros k. apply Hs. clear Hs. assert (forall b t, match t with c :: _ => c <> "*"%char /\ c <> "/"%char | [] => True end -> match parens b t with c :: _ => c <> "*"%char /\ c <> "/"%char | [] => True end) as Hp.
  { intros [] t Ht; [split; discriminate|exact Ht]. }
  revert k. induction e as [a| |e IH|m e IH|o a IHa b IHb]; intros k; cbn [print all_leaves] in *.
  - pose proof (digits_all _ H) as Hd. destruct (digits 10 (v a)) as [|c r]; [exact I|]. inversion Hd; subst. split; intros ->; discriminate.
  - split; discriminate.
  - apply (Hp true). exact (IH H 0%nat).
  - apply Hp. destruct m; split; discriminate.
  - apply Hp. destruct H as [Ha _]. specialize (IHa Ha (left_prec o)). destruct (print _ (left_prec o) a) as [|c r] eqn:E; [apply print_nonempty in E; [destruct E|intros; apply digits_nonempty]|]. exact IHa.
Qed.
Section ParseInteger.
  Context (p : platform) (getreg : text -> res Z) (reg : text -> Z) (read : Z -> res Z) (e : expr gdb_literal).
  Hypothesis Hl : all_leaves gdb_ok e.
  Hypothesis Hk : all_leaves (gdb_known getreg reg) e.
  Let w := print (fun l => digits 10 (gdb_value reg l)) 0 e.
  Let steps1 := gdb_reg_step getreg reg.
  Let steps2 := gdb_num_step reg.
  Let Hv := gdb_values getreg reg e Hl Hk.
  Let read_value : res Z := do v <- value (map_leaves (gdb_value reg) e); do n <- number v; Ok (truncateWord p n).
  Lemma read_value_eval : syntax_is_value (do v <- py_eval (double_slash w); truncate_value p v) = read_value.
  Proof.
    unfold w, read_value. rewrite python_print by exact Hv. rewrite eval_text by (apply all_leaves_map; exact Hv). pose proof (proj1 (value_not_syntax (map_leaves (gdb_value reg) e))) as Hne.
    destruct (value (map_leaves (gdb_value reg) e)) as [[x|[]|]|x]; cbn [bind]; try reflexivity. specialize (Hne x eq_refl). destruct x; try reflexivity. congruence.
  Qed.
  Lemma parseInteger_value s : lower (strip s) = print gdb_text 0 e -> parseInteger p py_eval getreg read s = read_value.
  Proof using Hl Hk.
    intros Hs. unfold parseInteger. cbv zeta. rewrite no_space. 2:{ rewrite Hs. apply print_Forall; [exact sym_space|]. eapply all_leaves_impl; [|exact Hl]. exact gdb_plain. }
    rewrite Hs. rewrite (re_sub_print _ _ gdb_text (gdb_1 reg) (fun l => gdb_ok l /\ gdb_known getreg reg l)); [|intros b c t Hc; apply gdb_reg_none; now apply sym_facts in Hc|reflexivity|intros l [H1 H2]; now apply steps1|now apply all_and].
    cbn [bind]. rewrite (re_sub_print _ _ (gdb_1 reg) (fun l => digits 10 (gdb_value reg l)) (fun l => gdb_ok l /\ 0 <= gdb_value reg l)); [|intros b c t Hc; apply gdb_num_none; now apply sym_facts in Hc|reflexivity|intros l [H1 H2]; now apply steps2|apply all_and; [exact Hl|exact Hv]].
    cbn [bind]. fold w. destruct (expr_regex_ok w) as (m & ->); [apply print_nonempty; intros; apply digits_nonempty|apply print_safe; exact Hv|].
    assert (starts_with (T "*") (double_slash w) = false) as -> by (apply print_first; exact Hv). cbv iota. rewrite read_value_eval. destruct read_value; reflexivity.
  Qed.
  Lemma parseInteger_pointer s : lower (strip s) = T "*" ++ print gdb_text 0 e -> parseInteger p py_eval getreg read s = do a <- read_value; read a.
  Proof using Hl Hk.
    assert (sym "*"%char) as Hst by (unfold sym; cbn; auto 10).
    intros Hs. unfold parseInteger. cbv zeta. rewrite no_space. 2:{ rewrite Hs. constructor; [reflexivity|]. apply print_Forall; [exact sym_space|]. eapply all_leaves_impl; [|exact Hl]. exact gdb_plain. }
    rewrite Hs. change (T "*" ++ print gdb_text 0 e) with ("*"%char :: print gdb_text 0 e).
    rewrite (re_sub_print_after _ _ _ gdb_text (gdb_1 reg) (fun l => gdb_ok l /\ gdb_known getreg reg l)); [|intros b c t Hc; apply gdb_reg_none; now apply sym_facts in Hc|reflexivity|intros l [H1 H2]; now apply steps1|exact Hst|now apply all_and].
    cbn [bind]. rewrite (re_sub_print_after _ _ _ (gdb_1 reg) (fun l => digits 10 (gdb_value reg l)) (fun l => gdb_ok l /\ 0 <= gdb_value reg l)); [|intros b c t Hc; apply gdb_num_none; now apply sym_facts in Hc|reflexivity|intros l [H1 H2]; now apply steps2|exact Hst|apply all_and; [exact Hl|exact Hv]].
    cbn [bind]. fold w. destruct (expr_regex_ok ("*"%char :: w)) as (m & ->); [discriminate|constructor; [right; exact Hst|apply print_safe; exact Hv]|].
    change (double_slash ("*"%char :: w)) with ("*"%char :: double_slash w). change (starts_with (T "*") ("*"%char :: double_slash w)) with true. change (skipn 1 ("*"%char :: double_slash w)) with (double_slash w).
    cbv iota. rewrite read_value_eval. destruct read_value; reflexivity.
  Qed.
End ParseInteger.

(** ** What is evaluated, whatever the text *)
Lemma strip_no_nl s : no_nl (strip s).
Proof.
  intros s' E. unfold strip, rstrip in E. apply (f_equal (@rev ascii)) in E. rewrite rev_involutive, rev_app_distr in E. cbn [rev app] in E. revert E. generalize (rev (lstrip s)). intros l. induction l as [|c l IH]; cbn [lstrip]; [discriminate|].
  destruct (is_space c) eqn:Ec; [exact IH|]. intros [= -> _]. discriminate.
Qed.
Lemma lower_no_nl s : no_nl s -> no_nl (lower s).
Proof.
  intros H s' E. unfold lower in E. destruct (@exists_last _ s) as (l & c & ->); [intros ->; destruct s'; discriminate|]. rewrite map_app in E. cbn [map] in E. apply app_inj_tail in E as [_ E].
  apply (H l). f_equal. f_equal. pose proof (forall_ascii (fun c => negb (Ascii.eqb (to_lower_char c) newline) || Ascii.eqb c newline) ltac:(vm_compute; reflexivity) c) as F. cbv beta in F. rewrite E in F. cbn [negb orb] in F. now apply Ascii.eqb_eq.
Qed.
Lemma str_int_no_nl v : str_int v <> [] /\ no_nl (str_int v).
Proof.
  split; [apply str_int_nonempty|]. intros s' E. pose proof (str_int_chars v) as H. rewrite E in H. apply Forall_app in H as [_ H]. inversion H as [|? ? Hc _]; subst. vm_compute in Hc. intuition congruence.
Qed.
Lemma replace_no_nl m t : replaceHexadecimal m = Ok t -> (t <> [] /\ no_nl t) \/ t = m_text m.
Proof.
  unfold replaceHexadecimal. destruct (starts_with _ _); [|destruct (existsb _ _); [|intros [= <-]; auto]]; (destruct (py_int 16 _); cbn [bind]; [|discriminate]); intros [= <-]; left; apply str_int_no_nl.
Qed.
Lemma sub_error r f : forall fuel b s e, sub_aux fuel r f b s = Err e -> exists m, f m = Err e.
Proof.
  induction fuel as [|fuel IH]; intros b s e; cbn [sub_aux]; [discriminate|]. destruct (search_from r b s) as [m|]; [|discriminate]. destruct (f m) as [u|x] eqn:E; cbn [bind]; [|intros [= <-]; eauto].
  destruct (sub_aux fuel r f _ _) as [v|x] eqn:Es; cbn [bind]; [discriminate|]. intros [= <-]. eauto.
Qed.
Lemma double_slash_safe s : safe_text s -> safe_text (double_slash s).
Proof.
  intros H. unfold double_slash. induction H as [|c s Hc H IH]; [constructor|]. cbn [flat_map]. apply Forall_app. split; [|exact IH]. destruct (Ascii.eqb c "/"%char); [constructor; [exact Hc|]|]; (constructor; [exact Hc|constructor]).
Qed.
Lemma parseExpression_safe eval1 eval2 getreg s : (forall t, safe_text t -> eval1 t = eval2 t) -> parseExpression eval1 getreg s = parseExpression eval2 getreg s.
Proof.
  intros He. unfold parseExpression. cbv zeta. destruct (contains (T " ") (strip s)); [reflexivity|].
  destruct (re_sub HEXADECIMAL_REGEX replaceHexadecimal (lower (strip s))) as [s1|x] eqn:E1; cbn [bind]; [|reflexivity]. destruct (re_sub REGISTER_REGEX (readRegister getreg) s1) as [s2|x] eqn:E2; cbn [bind]; [|reflexivity].
  destruct (re_match EXPR_REGEX s2) as [m|] eqn:Em; [|reflexivity]. apply expr_regex_inv in Em as [_ Hs].
  - rewrite He; [reflexivity|]. now apply double_slash_safe.
  - unfold re_sub in E1, E2. apply sub_no_nl in E1 as [E1 _]; [|exact replace_no_nl|apply lower_no_nl, strip_no_nl]. apply sub_no_nl in E2 as [E2 _]; [exact E2| |exact E1].
    intros m' t. unfold readRegister. destruct (group 1 (m_groups m')) as [name|]; [|discriminate]. destruct (getreg name); cbn [bind]; [|discriminate]. intros [= <-]. left. apply str_int_no_nl.
Qed.
Lemma parseInteger_safe p eval1 eval2 getreg read s : (forall t, safe_text t -> eval1 t = eval2 t) -> parseInteger p eval1 getreg read s = parseInteger p eval2 getreg read s.
Proof.
  intros He. unfold parseInteger. cbv zeta. destruct (contains (T " ") (strip s)); [reflexivity|].
  destruct (re_sub GDB_REGISTER_REGEX (gdb_readRegister getreg) (lower (strip s))) as [s1|x] eqn:E1; cbn [bind]; [|reflexivity]. destruct (re_sub GDB_NUMBER_REGEX replaceHexadecimal s1) as [s2|x] eqn:E2; cbn [bind]; [|reflexivity].
  destruct (re_match EXPR_REGEX s2) as [m|] eqn:Em; [|reflexivity]. apply expr_regex_inv in Em as [_ Hs].
  - assert (safe_text (if starts_with (T "*") (double_slash s2) then skipn 1 (double_slash s2) else double_slash s2)) as H.
    { apply double_slash_safe in Hs. destruct (starts_with _ _); [|exact Hs]. destruct (double_slash s2) as [|c t]; [constructor|]. inversion Hs; assumption. }
    rewrite He; [reflexivity|exact H].
  - unfold re_sub in E1, E2. apply sub_no_nl in E1 as [E1 _]; [| |apply lower_no_nl, strip_no_nl].
    + apply sub_no_nl in E2 as [E2 _]; [exact E2|exact replace_no_nl|exact E1].
    + intros m' t. unfold gdb_readRegister. destruct (getreg _); cbn [bind]; [|discriminate]. intros [= <-]. left. apply str_int_no_nl.
Qed.
(** ** Errors and results *)
Lemma replace_error m e : replaceHexadecimal m = Err e -> e = EValueError.
Proof.
  assert (forall s e, py_int 16 s = Err e -> e = EValueError) as H.
  { intros s e0. unfold py_int. destruct (strip s) as [|c t]; [congruence|]. destruct (Ascii.eqb c "-"); [|destruct (Ascii.eqb c "+")]; destruct (int_unsigned 16 _); congruence. }
  unfold replaceHexadecimal. destruct (starts_with _ _); [|destruct (existsb _ _); [|discriminate]]; (destruct (py_int 16 _) eqn:E; cbn [bind]; [discriminate|]); intros [= <-]; eapply H; exact E.
Qed.
Lemma parseExpression_errors getreg s e : parseExpression py_eval getreg s = Err e ->
  e = EValueError \/ e = ETypeError \/ e = EZeroDivisionError \/ e = EUndefined \/ exists name, getreg name = Err e.
Proof.
  unfold parseExpression. cbv zeta. destruct (contains (T " ") (strip s)); [intros [= <-]; auto|].
  destruct (re_sub HEXADECIMAL_REGEX replaceHexadecimal (lower (strip s))) as [s1|x] eqn:E1; cbn [bind]; [|intros [= <-]; apply sub_error in E1 as (m & E1); apply replace_error in E1; auto].
  destruct (re_sub REGISTER_REGEX (readRegister getreg) s1) as [s2|x] eqn:E2; cbn [bind].
  2:{ intros [= <-]. apply sub_error in E2 as (m & E2). unfold readRegister in E2. destruct (group 1 (m_groups m)) as [name|]; [|injection E2 as <-; auto]. destruct (getreg name) eqn:Eg; cbn [bind] in E2; [discriminate|]. injection E2 as <-. eauto 10. }
  destruct (re_match EXPR_REGEX s2) as [m|]; [|intros [= <-]; auto]. destruct (py_eval (double_slash s2)) as [v|x] eqn:Ev; cbn [syntax_is_value]; [discriminate|]. apply eval_errors in Ev. unfold eval_exn in Ev.
  destruct Ev as [->|[->|[->|[->| ->]]]]; intros [= <-]; auto.
Qed.
Lemma truncate_range p v : 0 <= truncateWord p v < 2 ^ wbits p.
Proof. rewrite truncate_word_mod. apply Z.mod_pos_bound. destruct (wbits_cases p) as [[_ ->]|[_ ->]]; lia. Qed.
Lemma parseInteger_result p eval getreg read s v : parseInteger p eval getreg read s = Ok v ->
  0 <= v < 2 ^ wbits p \/ exists a, 0 <= a < 2 ^ wbits p /\ read a = Ok v.
Proof.
  unfold parseInteger. cbv zeta. destruct (contains (T " ") (strip s)); [discriminate|].
  destruct (re_sub GDB_REGISTER_REGEX (gdb_readRegister getreg) (lower (strip s))) as [s1|x]; cbn [bind]; [|discriminate]. destruct (re_sub GDB_NUMBER_REGEX replaceHexadecimal s1) as [s2|x]; cbn [bind]; [|discriminate].
  destruct (re_match EXPR_REGEX s2) as [m|]; [|discriminate]. set (t := if starts_with _ _ then _ else _). clearbody t.
  destruct (eval t) as [w|x]; cbn [bind]; [|destruct x; discriminate]. unfold truncate_value. destruct (as_int w) as [z|]; [|discriminate]. cbn [syntax_is_value bind].
  pose proof (truncate_range p z) as Hr. destruct (starts_with _ _); intros H; [right; eauto|left]. injection H as <-. exact Hr.
Qed.
Lemma parseInteger_errors p getreg read s e : parseInteger p py_eval getreg read s = Err e ->
  e = EValueError \/ e = ETypeError \/ e = EZeroDivisionError \/ e = EUndefined \/ (exists name, getreg name = Err e) \/ exists a, read a = Err e.
Proof.
  unfold parseInteger. cbv zeta. destruct (contains (T " ") (strip s)); [intros [= <-]; auto|].
  destruct (re_sub GDB_REGISTER_REGEX (gdb_readRegister getreg) (lower (strip s))) as [s1|x] eqn:E1; cbn [bind].
  2:{ intros [= <-]. apply sub_error in E1 as (m & E1). unfold gdb_readRegister in E1. destruct (getreg (skipn 1 (m_text m))) eqn:Eg; cbn [bind] in E1; [discriminate|]. injection E1 as <-. eauto 10. }
  destruct (re_sub GDB_NUMBER_REGEX replaceHexadecimal s1) as [s2|x] eqn:E2; cbn [bind]; [|intros [= <-]; apply sub_error in E2 as (m & E2); apply replace_error in E2; auto].
  destruct (re_match EXPR_REGEX s2) as [m|]; [|intros [= <-]; auto]. set (t := if starts_with _ _ then _ else _). clearbody t.
  destruct (py_eval t) as [w|x] eqn:Ev; cbn [bind].
  - unfold truncate_value. destruct (as_int w) as [z|]; cbn [syntax_is_value bind]; [|intros [= <-]; auto]. destruct (starts_with _ _); [|discriminate]. intros H. eauto 10.
  - apply eval_errors in Ev. unfold eval_exn in Ev. destruct Ev as [->|[->|[->|[->| ->]]]]; cbn [syntax_is_value bind]; intros [= <-]; auto.
Qed.
Lemma parseIntegers_words p eval getreg read sep ws tail : is_space sep = true -> Forall word ws -> Forall (fun c => is_space c = true) tail ->
  parseIntegers p eval getreg read (List.concat (map (fun w => sep :: w) ws) ++ tail) = mapM (parseInteger p eval getreg read) ws.
Proof.
  intros Hsep Hw Ht. unfold parseIntegers. rewrite split_words by assumption. f_equal. induction Hw as [|w ws [_ H] _ IH]; [reflexivity|]. cbn [map]. rewrite IH. now rewrite strip_plain.
Qed.
