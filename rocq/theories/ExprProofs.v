From Coq Require Import ZArith List Ascii String Bool Lia.
From Verif Require Import PyBase PyFacts PyInt PyIntFacts Platform IntModel IntProofs RegexModel RegexFacts RegexSub PyEval ExprModel ExprSpec PyEvalProofs.
Import ListNotations.
Open Scope Z_scope.

Definition sym (c : ascii) : Prop := In c (T "()<>+*/&-").
Definition ok_next (s : text) : Prop := match s with c :: _ => sym c | [] => True end.
(** A property of all symbols *)
Lemma sym_all (P : ascii -> bool) : forallb P (T "()<>+*/&-") = true -> forall c, sym c -> P c = true.
Proof. intros H c Hc. rewrite forallb_forall in H. auto. Qed.
Lemma syms w : forallb (fun c => char_in (T "()<>+*/&-") c) w = true -> Forall sym w.
Proof.
  intros H. apply Forall_forall. intros c Hc. rewrite forallb_forall in H. specialize (H c Hc). apply existsb_exists in H as (d & H1 & H2). apply Ascii.eqb_eq in H2. now subst.
Qed.
(** A substitution that leaves the symbols unchanged and turns leaves into leaves *)
Lemma subs_print {A} r f (leaf leaf' : A -> text) (P : A -> Prop) :
  (forall b c s, sym c -> match_at r (b, c :: s) = None) ->
  (forall a, P a -> forall b rest t, ok_next rest -> subs r f (rev (leaf a) ++ b) rest t -> subs r f b (leaf a ++ rest) (leaf' a ++ t)) ->
  forall e k, all_leaves P e -> forall b rest t, ok_next rest -> subs r f (rev (print leaf k e) ++ b) rest t -> subs r f b (print leaf k e ++ rest) (print leaf' k e ++ t).
Proof.
  intros Hsym Hleaf. assert (forall w, Forall sym w -> forall b rest t, subs r f (rev w ++ b) rest t -> subs r f b (w ++ rest) (w ++ t)) as Hw.
  { intros w Hw b rest t H. apply subs_skips; [|exact H]. intros w1 c w2 ->. apply Hsym. rewrite Forall_app in Hw. destruct Hw as [_ Hw]. now inversion Hw. }
  assert (forall c (par : bool) (x x' : text), (par = true -> c = true) -> (forall b rest t, ok_next rest -> subs r f (rev x ++ b) rest t -> subs r f b (x ++ rest) (x' ++ t)) ->
    forall b rest t, ok_next rest -> subs r f (rev (parens par x) ++ b) rest t -> subs r f b (parens par x ++ rest) (parens par x' ++ t)) as Hp.
  { intros _ par x x' _ Hx b rest t Hr Hs. destruct par; [|now apply Hx]. change (parens true x) with (T "(" ++ x ++ T ")") in *. change (parens true x') with (T "(" ++ x' ++ T ")"). rewrite <- !app_assoc. rewrite !rev_app_distr, <- !app_assoc in Hs.
    apply (Hw (T "(")); [now apply syms|]. apply Hx; [cbn; unfold sym; cbn; auto|]. apply (Hw (T ")")); [now apply syms|]. exact Hs. }
  assert (forall o, Forall sym (op_text o)) as Hop by (intros []; now apply syms).
  induction e as [a| |e IH|m e IH|o a IHa b' IHb]; intros k Hl b rest t Hr Hs; cbn [print all_leaves] in *.
  - now apply Hleaf.
  - apply (Hw (T "()")); [now apply syms|exact Hs].
  - revert b rest t Hr Hs. apply (Hp true); [auto|]. intros b rest t Hr Hs. apply IH; auto.
  - revert b rest t Hr Hs. apply (Hp true); [auto|]. intros b rest t Hr Hs. rewrite <- !app_assoc. rewrite !rev_app_distr, <- !app_assoc in Hs. apply (Hw (sign_text m)); [destruct m; now apply syms|]. apply IH; auto.
  - revert b rest t Hr Hs. apply (Hp true); [auto|]. intros b rest t Hr Hs. rewrite <- !app_assoc. rewrite !rev_app_distr, <- !app_assoc in Hs. destruct Hl as [Hla Hlb].
    apply IHa; [exact Hla|destruct o; cbn; unfold sym; cbn; auto 10|]. apply Hw; [apply Hop|]. apply IHb; auto.
Qed.
Lemma re_sub_print {A} r f (leaf leaf' : A -> text) (P : A -> Prop) e :
  (forall b c s, sym c -> match_at r (b, c :: s) = None) -> (forall b, match_at r (b, []) = None) ->
  (forall a, P a -> forall b rest t, ok_next rest -> subs r f (rev (leaf a) ++ b) rest t -> subs r f b (leaf a ++ rest) (leaf' a ++ t)) ->
  all_leaves P e -> re_sub r f (print leaf 0 e) = Ok (print leaf' 0 e).
Proof.
  intros H1 H2 H3 He. apply subs_re. rewrite <- (app_nil_r (print leaf 0 e)), <- (app_nil_r (print leaf' 0 e)). eapply subs_print; eauto; [exact I|]. apply subs_end. apply H2.
Qed.
(** The same after a symbol *)
Lemma re_sub_print_after {A} c r f (leaf leaf' : A -> text) (P : A -> Prop) e :
  (forall b c s, sym c -> match_at r (b, c :: s) = None) -> (forall b, match_at r (b, []) = None) ->
  (forall a, P a -> forall b rest t, ok_next rest -> subs r f (rev (leaf a) ++ b) rest t -> subs r f b (leaf a ++ rest) (leaf' a ++ t)) -> sym c ->
  all_leaves P e -> re_sub r f (c :: print leaf 0 e) = Ok (c :: print leaf' 0 e).
Proof.
  intros H1 H2 H3 Hc He. apply subs_re. apply subs_skip; [now apply H1|]. rewrite <- (app_nil_r (print leaf 0 e)), <- (app_nil_r (print leaf' 0 e)). eapply subs_print; eauto; [exact I|]. apply subs_end. apply H2.
Qed.

(** ** Numbers *)
Lemma hex_all n : 0 <= n -> Forall (fun c => is_hex_lower c = true) (digits 16 n).
Proof.
  intros Hz. apply digits_Forall; [lia| |exact Hz]. intros d Hd.
  assert (d = 0 \/ d = 1 \/ d = 2 \/ d = 3 \/ d = 4 \/ d = 5 \/ d = 6 \/ d = 7 \/ d = 8 \/ d = 9 \/ d = 10 \/ d = 11 \/ d = 12 \/ d = 13 \/ d = 14 \/ d = 15) as H by lia.
  repeat (destruct H as [->|H]; [reflexivity|]). subst d. reflexivity.
Qed.
Lemma hex_plain c : is_hex_lower c = true -> is_space c = false /\ c <> "_"%char /\ c <> "x"%char /\ c <> "X"%char /\ c <> "-"%char /\ c <> "+"%char /\ c <> "$"%char.
Proof.
  intros H. pose proof (forall_ascii (fun c => negb (is_hex_lower c) || (negb (is_space c) && negb (Ascii.eqb c "_") && negb (Ascii.eqb c "x") && negb (Ascii.eqb c "X") && negb (Ascii.eqb c "-") && negb (Ascii.eqb c "+") && negb (Ascii.eqb c "$")))%char ltac:(vm_compute; reflexivity) c) as F.
  cbv beta in F. rewrite H in F. cbn [negb orb] in F. repeat (apply andb_prop in F as [F ?]). repeat match goal with H : negb _ = true |- _ => apply negb_true_iff in H end.
  repeat split; try assumption; now apply Ascii.eqb_neq.
Qed.
Lemma digit_hex c : is_digit c = true -> is_hex_lower c = true /\ is_af c = false /\ is_lower c = false.
Proof.
  intros H. pose proof (forall_ascii (fun c => negb (is_digit c) || (is_hex_lower c && negb (is_af c) && negb (is_lower c)))%char ltac:(vm_compute; reflexivity) c) as F.
  cbv beta in F. rewrite H in F. cbn [negb orb] in F. repeat (apply andb_prop in F as [F ?]). repeat match goal with H : negb _ = true |- _ => apply negb_true_iff in H end. auto.
Qed.
Lemma strip_plain s : Forall (fun c => is_space c = false) s -> strip s = s.
Proof.
  intros H. unfold strip. assert (forall t, Forall (fun c => is_space c = false) t -> lstrip t = t) as Hl by (intros t Ht; destruct Ht as [|c t Hc]; [reflexivity|now apply lstrip_none]).
  rewrite Hl by exact H. unfold rstrip. rewrite Hl by now apply Forall_rev. apply rev_involutive.
Qed.
Lemma py_int_hex n : 0 <= n -> py_int 16 (digits 16 n) = Ok n.
Proof.
  intros Hn. unfold py_int. pose proof (hex_all n Hn) as Hh. rewrite strip_plain by (eapply Forall_impl; [|exact Hh]; intros c Hc; now apply hex_plain).
  pose proof (digits_read 16 n ltac:(lia) Hn) as Hr. destruct (digits 16 n) as [|c r] eqn:E; [now apply digits_nonempty in E|].
  inversion Hh as [|? ? Hc Hh']; subst. destruct (hex_plain c Hc) as (_ & _ & _ & _ & Hm & Hp & _). rewrite (proj2 (Ascii.eqb_neq _ _) Hm), (proj2 (Ascii.eqb_neq _ _) Hp).
  assert (int_unsigned 16 (c :: r) = int_digits 16 (c :: r) false 0) as ->.
  { unfold int_unsigned. destruct r as [|d r]; [reflexivity|]. inversion Hh' as [|? ? Hd _]; subst. destruct (hex_plain d Hd) as (_ & _ & Hx & HX & _). unfold base_letter. rewrite (proj2 (Ascii.eqb_neq _ _) Hx), (proj2 (Ascii.eqb_neq _ _) HX). cbn [Z.eqb Pos.eqb orb andb]. now rewrite andb_false_r. }
  rewrite int_digits_read; [now rewrite Hr| |right; discriminate]. intros d Hd. rewrite Forall_forall in Hh. now apply hex_plain, Hh.
Qed.
Lemma str_int_nonneg n : 0 <= n -> str_int n = digits 10 n.
Proof. intros H. unfold str_int, fmt_int. replace (n <? 0) with false by blia. reflexivity. Qed.

(** ** parse_expr.py *)
Lemma sym_facts c : sym c -> is_hex_lower c = false /\ is_lower c = false /\ is_name c = false /\ c <> "x"%char /\ c <> "0"%char /\ c <> "$"%char /\ is_space c = false.
Proof.
  intros H. pose proof (sym_all (fun c => negb (is_hex_lower c) && negb (is_lower c) && negb (is_name c) && negb (Ascii.eqb c "x") && negb (Ascii.eqb c "0") && negb (Ascii.eqb c "$") && negb (is_space c))%char eq_refl c H) as F.
  cbv beta in F. repeat (apply andb_prop in F as [F ?]). repeat match goal with H : negb _ = true |- _ => apply negb_true_iff in H end. repeat split; try assumption; now apply Ascii.eqb_neq.
Qed.
Lemma next_stops f s : (forall c, sym c -> f c = false) -> ok_next s -> stops f s.
Proof. intros H Hs. destruct s as [|c s]; [exact I|]. cbn. auto. Qed.
Lemma hex_none b c s : c <> "0"%char \/ (match s with d :: _ => d <> "x"%char | [] => True end) -> match_at HEXADECIMAL_REGEX (b, c :: s) = None.
Proof.
  intros H. unfold match_at. cbn [HEXADECIMAL_REGEX mat rtext T list_ascii_of_string rchar snd fst]. destruct (Ascii.eqb_spec "0"%char c) as [<-|]; [|reflexivity].
  destruct H as [H|H]; [congruence|]. destruct s as [|d s]; [reflexivity|]. destruct (Ascii.eqb_spec "x"%char d) as [<-|]; [congruence|reflexivity].
Qed.
Lemma hex_match b ds s : ds <> [] -> Forall (fun c => is_hex_lower c = true) ds -> stops is_hex_lower s ->
  exists m, match_at HEXADECIMAL_REGEX (b, (T "0x" ++ ds) ++ s) = Some m /\ m_text m = T "0x" ++ ds.
Proof.
  intros Hn Hd Hs. assert (mat HEXADECIMAL_REGEX (b, (T "0x" ++ ds) ++ s) [] (fun p c => Some (p, c)) = Some ((rev ds ++ rev (T "0x") ++ b, s), [])) as E.
  { unfold HEXADECIMAL_REGEX. apply mat_cat. rewrite <- app_assoc. cbn [T list_ascii_of_string rtext app]. apply mat_cat. apply mat_char. apply mat_char. apply mat_plus_set; auto. }
  unfold match_at. rewrite E. eexists. split; [reflexivity|]. cbn [m_text snd]. apply (firstn_part (T "0x" ++ ds) s).
Qed.
Definition literal_1 (l : literal) : text := match l with Dec n | Hex n => digits 10 n | Reg name => name end.
Lemma hex_skip w : no_0x w -> forall b rest t, ok_next rest -> subs HEXADECIMAL_REGEX replaceHexadecimal (rev w ++ b) rest t -> subs HEXADECIMAL_REGEX replaceHexadecimal b (w ++ rest) (w ++ t).
Proof.
  intros Hw b rest t Hr Hs. apply subs_skips; [|exact Hs]. intros w1 c w2 E. apply hex_none. destruct (Ascii.eqb_spec c "0"%char) as [->|]; [right|left; assumption].
  destruct w2 as [|d w2]; cbn [app]; [destruct rest as [|d rest]; [exact I|]; now apply sym_facts in Hr|]. intros ->. apply (Hw w1 w2). exact E.
Qed.
Lemma dec_no_0x n : 0 <= n -> no_0x (digits 10 n).
Proof.
  intros Hn a b E. pose proof (digits_all n Hn) as H. rewrite E, !Forall_app in H. destruct H as (_ & H & _). cbn in H. inversion H as [|? ? _ H']; subst. inversion H'; subst. discriminate.
Qed.
Lemma hex_step l : literal_ok l -> (forall name, l = Reg name -> no_0x name) -> forall b rest t, ok_next rest ->
  subs HEXADECIMAL_REGEX replaceHexadecimal (rev (literal_text l) ++ b) rest t -> subs HEXADECIMAL_REGEX replaceHexadecimal b (literal_text l ++ rest) (literal_1 l ++ t).
Proof.
  intros Hl Hx b rest t Hr Hs. destruct l as [n|n|name]; cbn [literal_text literal_1 literal_ok] in *.
  - apply hex_skip; auto. now apply dec_no_0x.
  - destruct (hex_match b (digits 16 n) rest) as (m & Hm & Ht); [apply digits_nonempty|now apply hex_all|apply next_stops; [intros c Hc; now apply sym_facts in Hc|exact Hr]|].
    eapply subs_match; [exact Hm|exact Ht|discriminate| |exact Hs]. unfold replaceHexadecimal. rewrite Ht. cbn [T list_ascii_of_string app starts_with skipn]. rewrite !Ascii.eqb_refl. cbn [andb].
    rewrite py_int_hex by exact Hl. cbn [bind]. now rewrite str_int_nonneg.
  - apply hex_skip; auto.
Qed.
(** A name: [a-z]+[a-z0-9_]+, with backtracking *)
Lemma name_match {R} a : forall b rest bf c (k : pos -> caps -> option R) r, a <> [] -> b <> [] -> Forall (fun x => is_lower x = true) a -> Forall (fun x => is_name x = true) b -> stops is_name rest ->
  k (rev (a ++ b) ++ bf, rest) c = Some r -> mat (RCat (rplus (RSet is_lower)) (rplus (RSet is_name))) (bf, (a ++ b) ++ rest) c k = Some r.
Proof.
  assert (forall x, is_lower x = true -> is_name x = true) as Hln by (intros x H; unfold is_name; now rewrite H).
  assert (forall x, is_name x = false -> is_lower x = false) as Hnl. { intros x H. unfold is_name in H. destruct (is_lower x); [discriminate|reflexivity]. }
  (* the letters after the first one, then the rest *)
  assert (forall (ls b rest bf : text) c (k : pos -> caps -> option R) r fuel, Forall (fun x => is_lower x = true) ls -> Forall (fun x => is_name x = true) b -> stops is_name rest ->
    (ls ++ b <> []) -> (List.length ls < fuel)%nat -> stops is_lower (b ++ rest) -> k (rev (ls ++ b) ++ bf, rest) c = Some r ->
    star (mat (RSet is_lower)) fuel (bf, (ls ++ b) ++ rest) c (fun p c => mat (rplus (RSet is_name)) p c k) = Some r) as Hstar.
  { induction ls as [|x ls IH]; intros b rest bf c k r fuel Hls Hb Hr Hne Hf Hst Hk.
    - destruct fuel as [|fuel]; [cbn in Hf; lia|]. cbn [app] in *. cbn [star mat snd fst]. destruct (b ++ rest) as [|y s] eqn:E; [destruct b; [congruence|discriminate]|]. cbn in Hst. rewrite Hst. rewrite <- E. apply mat_plus_set; auto.
    - destruct fuel as [|fuel]; [cbn in Hf; lia|]. inversion Hls as [|? ? Hx Hls']; subst. cbn [app]. rewrite star_step by exact Hx. destruct (ls ++ b) as [|y s] eqn:E.
      + apply app_eq_nil in E as [-> ->]. cbn [app] in *. assert (star (mat (RSet is_lower)) fuel (x :: bf, rest) c (fun p c => mat (rplus (RSet is_name)) p c k) = None) as ->.
        { assert (mat (rplus (RSet is_name)) (x :: bf, rest) c k = None) as Hno. { unfold rplus. cbn [mat snd fst]. destruct rest as [|z rest]; [reflexivity|]. cbn in Hr. now rewrite Hr. }
          destruct fuel as [|fuel]; [exact Hno|]. cbn [star]. cbn [mat snd fst]. destruct rest as [|z rest]; [exact Hno|]. cbn in Hr. rewrite (Hnl z Hr). exact Hno. }
        change (x :: rest) with ([x] ++ rest). apply mat_plus_set; auto; discriminate.
      + rewrite <- E. rewrite (IH b rest (x :: bf) c k r fuel); auto; [rewrite E; discriminate|cbn in Hf; lia|]. cbn [app rev] in Hk. rewrite <- app_assoc in Hk. exact Hk. }
  intros b rest bf c k r Ha Hb Hfa Hfb Hr Hk.
  (* all the letters *)
  destruct a as [|x a]; [congruence|]. inversion Hfa as [|? ? Hx Hfa']; subst.
  assert (exists ls b', a ++ b = ls ++ b' /\ Forall (fun y => is_lower y = true) ls /\ Forall (fun y => is_name y = true) b' /\ stops is_lower (b' ++ rest)) as (ls & b' & E & H1 & H2 & H3).
  { assert (Forall (fun y => is_name y = true) (a ++ b)) as Hab. { apply Forall_app. split; [eapply Forall_impl; [|exact Hfa']; auto|exact Hfb]. }
    clear -Hab Hr Hnl. induction (a ++ b) as [|y l IH].
    - exists [], []. repeat split; auto. cbn [app]. destruct rest; [exact I|]. cbn in *. auto.
    - inversion Hab as [|? ? Hy Hab']; subst. destruct (is_lower y) eqn:Ey.
      + destruct (IH Hab') as (ls & b' & -> & H1 & H2 & H3). exists (y :: ls), b'. repeat split; auto.
      + exists [], (y :: l). repeat split; auto. }
  cbn [app] in *. apply mat_cat. unfold rplus at 1. cbn [mat snd fst app]. rewrite Hx. rewrite E in *. apply (Hstar ls b' rest (x :: bf) c k r); auto.
  - intros E'. rewrite <- E in E'. apply app_eq_nil in E' as [_ E']. congruence.
  - rewrite !app_length. lia.
  - cbn [rev] in Hk. rewrite <- app_assoc in Hk. exact Hk.
Qed.
Lemma reg_none b c s : is_lower c = false -> match_at REGISTER_REGEX (b, c :: s) = None.
Proof. intros H. unfold match_at. cbn [REGISTER_REGEX mat rplus snd fst]. now rewrite H. Qed.
Lemma reg_match b name s : reg_name name -> stops is_name s -> exists m, match_at REGISTER_REGEX (b, name ++ s) = Some m /\ m_text m = name /\ group 1 (m_groups m) = Some name.
Proof.
  intros (a & t & -> & Ha & Ht & Hfa & Hft) Hs.
  assert (mat REGISTER_REGEX (b, (a ++ t) ++ s) [] (fun p c => Some (p, c)) = Some ((rev (a ++ t) ++ b, s), dset Nat.eqb 1%nat (a ++ t) [])) as E.
  { unfold REGISTER_REGEX. apply mat_group; [|reflexivity]. intros k' Hk. apply name_match; auto. }
  unfold match_at. rewrite E. eexists. split; [reflexivity|]. cbn [m_text m_groups snd]. split; [apply firstn_part|reflexivity].
Qed.
Section Parse.
  Context (getreg : text -> res Z) (reg : text -> Z).
  Definition literal_2 (l : literal) : text := digits 10 (literal_value reg l).
  Lemma reg_step l : literal_ok l -> known getreg reg l -> forall b rest t, ok_next rest ->
    subs REGISTER_REGEX (readRegister getreg) (rev (literal_1 l) ++ b) rest t -> subs REGISTER_REGEX (readRegister getreg) b (literal_1 l ++ rest) (literal_2 l ++ t).
  Proof.
    intros Hl Hk b rest t Hr Hs. destruct l as [n|n|name]; cbn [literal_1 literal_ok known] in *; unfold literal_2; cbn [literal_value].
    1, 2: apply subs_skips; [|exact Hs]; intros w1 c w2 E; apply reg_none; pose proof (digits_all n Hl) as Hd; rewrite E, Forall_app in Hd; destruct Hd as [_ Hd]; inversion Hd; now apply digit_hex.
    destruct (reg_match b name rest Hl) as (m & Hm & Ht & Hg); [apply next_stops; [intros c Hc; now apply sym_facts in Hc|exact Hr]|].
    eapply subs_match; [exact Hm|exact Ht| | |exact Hs].
    - destruct Hl as (a & b' & -> & Ha & _). destruct a; [congruence|discriminate].
    - unfold readRegister. rewrite Hg. destruct Hk as [-> Hk]. cbn [bind]. now rewrite str_int_nonneg.
  Qed.
End Parse.
(** ** Safe texts *)
Lemma safe_char_spec c : safe_char c = true <-> is_digit c = true \/ In c (T "()<>+*/&-").
Proof.
  unfold safe_char, char_in. rewrite orb_true_iff, existsb_exists. split; intros [H|H]; auto; right.
  - destruct H as (d & H1 & H2). apply Ascii.eqb_eq in H2. now subst.
  - exists c. split; [exact H|apply Ascii.eqb_refl].
Qed.
Lemma expr_regex_ok s : s <> [] -> safe_text s -> exists m, re_match EXPR_REGEX s = Some m.
Proof.
  intros Hn Hs. assert (mat EXPR_REGEX ([], s ++ []) [] (fun p c => Some (p, c)) = Some ((rev s ++ [], []), [])) as E.
  { unfold EXPR_REGEX. cbn [rcat]. apply mat_cat. cbn [mat fst]. change (mat (RCat (rplus (RSet safe_char)) REnd) ([], s ++ []) [] (fun p c => Some (p, c)) = Some (rev s ++ [], [], [])). apply mat_cat.
    apply mat_plus_set; [exact Hn| |exact I|reflexivity]. eapply Forall_impl; [|exact Hs]. intros c. apply safe_char_spec. }
  rewrite app_nil_r in E. unfold re_match, match_at. rewrite E. eauto.
Qed.
Lemma expr_regex_inv s m : re_match EXPR_REGEX s = Some m -> no_nl s -> s <> [] /\ safe_text s.
Proof.
  unfold re_match, match_at. destruct (mat EXPR_REGEX ([], s) [] _) as [x|] eqn:E; [|discriminate]. intros _ Hnl. unfold EXPR_REGEX in E. cbn [rcat] in E. change (mat (RCat (rplus (RSet safe_char)) REnd) ([], s) [] (fun p c => Some (p, c)) = Some x) in E.
  change (mat (rplus (RSet safe_char)) ([], s) [] (fun p c => mat REnd p c (fun p c => Some (p, c))) = Some x) in E. apply plus_set_inv in E as (w & rest & -> & Hw & Hf & E). cbn [mat snd] in E.
  assert (safe_text w) as Hs by (eapply Forall_impl; [|exact Hf]; intros c; apply safe_char_spec).
  destruct rest as [|c [|? ?]]; [|destruct (Ascii.eqb_spec c newline) as [->|]; [|discriminate]; exfalso; now apply (Hnl w)|discriminate].
  rewrite app_nil_r. auto.
Qed.
