(** * GenProofs2: the table printed for a header *)
From Coq Require Import ZArith List Ascii String Bool Lia Sorted.
From Verif Require Import PyBase PyFacts RegexFacts GenModel GenSpec GenProofs.
Import ListNotations.
Open Scope Z_scope.

(** ** One argument *)
Lemma strip_framed (a b : ascii) pre t post : white pre -> white post -> is_space a = false -> is_space b = false ->
  hd " "%char t = a -> last t " "%char = b -> strip (pre ++ t ++ post) = t.
Proof.
  intros H1 H2 Ha Hb Eh El. unfold strip. rewrite lstrip_spaces by (apply Forall_forall; exact H1).
  destruct t as [|c t]; [cbn in Eh; subst; discriminate|]. cbn in Eh. subst c.
  cbn [app]. rewrite lstrip_none by exact Ha. change (a :: t ++ post) with ((a :: t) ++ post).
  destruct (exists_last (l := a :: t) ltac:(discriminate)) as [r [c E]]. rewrite E in *. rewrite last_last in El. subst c.
  rewrite <- app_assoc. apply rstrip_spaces; [exact Hb|apply Forall_forall; exact H2].
Qed.

Lemma hd_join ts : Forall (fun t => t <> [] /\ forall c, In c t -> is_space c = false) ts -> ts <> [] -> is_space (hd " "%char (join (T " ") ts)) = false.
Proof.
  intros H Hn. destruct ts as [|t ts]; [congruence|]. inversion H as [|? ? [H1 H2] _]; subst. rewrite join_cons.
  destruct t as [|c t]; [congruence|]. cbn. apply H2. now left.
Qed.
Lemma last_app2 {A} (a b : list A) d : b <> [] -> last (a ++ b) d = last b d.
Proof. intros H. destruct (exists_last H) as [r [c ->]]. rewrite app_assoc, !last_last. reflexivity. Qed.
Lemma join_ne ts : Forall (fun t => t <> [] /\ forall c, In c t -> is_space c = false) ts -> ts <> [] -> join (T " ") ts <> [].
Proof. intros H Hn E. pose proof (hd_join ts H Hn) as H1. rewrite E in H1. discriminate. Qed.
Lemma last_join ts d : Forall (fun t => t <> [] /\ forall c, In c t -> is_space c = false) ts -> ts <> [] -> last (join (T " ") ts) d = last (last ts []) d.
Proof.
  induction ts as [|t ts IH]; intros H Hn; [congruence|]. inversion H as [|? ? [H1 H2] H3]; subst. rewrite join_cons.
  destruct ts as [|t2 ts]; [rewrite app_nil_r; reflexivity|].
  rewrite app_assoc, last_app2 by (apply join_ne; [exact H3|discriminate]). rewrite IH by (assumption || discriminate). reflexivity.
Qed.
Lemma last_in {A} (l : list A) d : l <> [] -> In (last l d) l.
Proof. intros H. destruct (exists_last H) as [r [c ->]]. rewrite last_last. apply in_or_app. right. now left. Qed.

Lemma strip_join b ts post : Forall (fun t => t <> [] /\ forall c, In c t -> is_space c = false) ts -> ts <> [] -> white post ->
  strip (blank b ++ join (T " ") ts ++ post) = join (T " ") ts.
Proof.
  intros H Hn Hp. eapply strip_framed; [|exact Hp| | |reflexivity|reflexivity].
  - destruct b; intros c Hc; [|destruct Hc]. destruct Hc as [<-|[]]. reflexivity.
  - now apply hd_join.
  - rewrite last_join by assumption. pose proof (last_in ts [] Hn) as Hin. rewrite Forall_forall in H. destruct (H _ Hin) as [H1 H2].
    apply H2. now apply last_in.
Qed.

Lemma ends_app e a b : ends_with e b = true -> ends_with e (a ++ b) = true.
Proof. intros H. apply ends_with_spec in H as [r ->]. apply ends_with_spec. exists (a ++ r). apply app_assoc. Qed.

Lemma like_app a b : like_type b = true -> like_type (a ++ b) = true.
Proof. intros H. unfold like_type in *. apply existsb_exists in H as [e [H1 H2]]. apply existsb_exists. exists e. split; [exact H1|]. now apply ends_app. Qed.

Lemma like_not X c name : name <> [] -> ~ In "*"%char name -> (c = " "%char \/ c = "*"%char) -> like_type name = false -> like_type (X ++ c :: name) = false.
Proof.
  intros Hn Hs Hc H. destruct (like_type (X ++ c :: name)) eqn:E; [|reflexivity]. exfalso.
  unfold like_type in *. apply existsb_exists in E as [e [H1 H2]]. cbn in H1.
  unfold ends_with in H2. rewrite rev_app_distr in H2. cbn [rev] in H2. rewrite <- app_assoc in H2. cbn [app] in H2.
  destruct H1 as [<-|H1].
  - destruct (rev name) as [|x l] eqn:Er; [apply (f_equal (@rev _)) in Er; rewrite rev_involutive in Er; cbn in Er; congruence|].
    change (Ascii.eqb "*"%char x && starts_with [] (l ++ c :: rev X) = true) in H2. apply andb_true_iff in H2 as [H2 _]. apply Ascii.eqb_eq in H2. apply Hs. apply in_rev. rewrite Er. now left.
  - assert (~ In c (rev e)) as Hce.
    { intros Hin. apply in_rev in Hin. destruct Hc as [->| ->]; cbn in H1;
      repeat (destruct H1 as [<-|H1]; [cbn in Hin; repeat (destruct Hin as [Hin|Hin]; [discriminate|]); destruct Hin|]); destruct H1. }
    rewrite sw_sep in H2 by exact Hce. assert (existsb (fun e => ends_with e name) type_ends = true) as H3; [|rewrite H3 in H; discriminate].
    apply existsb_exists. exists e. split; [|exact H2]. cbn. right. exact H1.
Qed.

Lemma span_app f a c b : (forall x, In x a -> f x = true) -> f c = false -> span f (a ++ c :: b) = (a, c :: b).
Proof.
  intros H Hc. induction a as [|x a IH]; cbn; [now rewrite Hc|]. rewrite (H x) by now left.
  rewrite IH by (intros y Hy; apply H; now right). reflexivity.
Qed.

Lemma match_named X c name : name <> [] -> (forall x, In x name -> x <> " "%char /\ x <> "*"%char) -> (c = " "%char \/ c = "*"%char) ->
  match_arg (X ++ c :: name) = Some (X ++ [c], name).
Proof.
  intros Hn H Hc. unfold match_arg. rewrite rev_app_distr. cbn [rev]. rewrite <- app_assoc. cbn [app].
  rewrite span_app.
  - destruct (rev name) eqn:E; [apply (f_equal (@rev _)) in E; rewrite rev_involutive in E; cbn in E; congruence|].
    rewrite <- E, rev_involutive. cbn [rev]. rewrite rev_involutive. reflexivity.
  - intros x Hx. apply in_rev in Hx. destruct (H x Hx) as [H1 H2]. apply Ascii.eqb_neq in H1, H2. rewrite H1, H2. reflexivity.
  - destruct Hc as [->| ->]; reflexivity.
Qed.

Lemma plain_nonspace t : plain_word t -> t <> [] /\ forall c, In c t -> is_space c = false.
Proof. intros [[H1 H2] _]. split; [exact H1|]. intros c Hc. apply (H2 c Hc). Qed.
Lemma stars_nonspace n : n <> O -> stars n <> [] /\ forall c, In c (stars n) -> is_space c = false.
Proof.
  intros H. split; [destruct n; [congruence|discriminate]|]. intros c Hc. unfold stars in Hc. apply repeat_spec in Hc. subst. reflexivity.
Qed.
Lemma stars_last n : n <> O -> exists m, stars n = stars m ++ ["*"%char].
Proof. intros H. destruct n as [|n]; [congruence|]. exists n. unfold stars. rewrite <- repeat_cons. reflexivity. Qed.

(** The texts of a parameter: after an optional space the type, and what follows it. *)
Definition parsed (call_name ty name : text) : text * text :=
  (if (text_eqb call_name (T "pipe") || text_eqb call_name (T "pipe2")) && text_eqb ty (T "int *") then T "int[2]" else ty, name).

Lemma gen_unnamed call_name b ts : Forall (fun t => t <> [] /\ forall c, In c t -> is_space c = false) ts -> ts <> [] ->
  like_type (last ts []) = true -> gen_arg call_name (blank b ++ join (T " ") ts) = Ok (parsed call_name (join (T " ") ts) []).
Proof.
  intros H Hn Hl. unfold gen_arg. fold type_ends. fold (like_type (blank b ++ join (T " ") ts)).
  assert (like_type (blank b ++ join (T " ") ts) = true) as ->.
  { apply like_app. destruct (exists_last Hn) as [r [t E]]. subst ts. rewrite last_last in Hl.
    clear H Hn. induction r as [|x r IH]; [exact Hl|]. cbn [app]. rewrite join_app1 by (destruct r; discriminate).
    rewrite app_assoc. now apply like_app. }
  pose proof (strip_join b ts [] H Hn ltac:(intros c [])) as E. rewrite app_nil_r in E. rewrite E. reflexivity.
Qed.

Lemma gen_named call_name b ts c name : Forall (fun t => t <> [] /\ forall c, In c t -> is_space c = false) ts -> ts <> [] ->
  plain_word name -> ~ In "*"%char name -> like_type name = false -> (c = " "%char \/ c = "*"%char) ->
  forall X ty, X ++ [c] = blank b ++ join (T " ") ts ++ ty -> white ty ->
  gen_arg call_name (X ++ c :: name) = Ok (parsed call_name (join (T " ") ts) name).
Proof.
  intros H Hn Hp Hs Hl Hc X ty E Hty. unfold gen_arg. fold type_ends. fold (like_type (X ++ c :: name)).
  destruct (plain_nonspace name Hp) as [N1 N2].
  rewrite like_not by assumption. rewrite match_named; [|exact N1| |exact Hc].
  2:{ intros x Hx. split; intros ->; [apply N2 in Hx; discriminate|contradiction]. }
  rewrite E. rewrite (strip_join b ts ty H Hn Hty).
  assert (strip name = name) as ->.
  { pose proof (strip_join false [name] [] ltac:(constructor; [split; assumption|constructor]) ltac:(discriminate) ltac:(intros c0 [])) as E2.
    cbn in E2. rewrite app_nil_r in E2. exact E2. }
  reflexivity.
Qed.

Lemma gen_param call_name b p e : good_param p -> ending p e ->
  gen_arg call_name (blank b ++ join (T " ") (p_words p ++ e)) = Ok (shown_type call_name p, p_name p).
Proof.
  intros [Hw [HW HG]] He.
  assert (Forall (fun t => t <> [] /\ forall c, In c t -> is_space c = false) (p_words p)) as HF.
  { rewrite Forall_forall in *. intros t Ht. apply plain_nonspace. now apply HW. }
  unfold shown_type, type_text.
  assert (Forall (fun t => t <> [] /\ forall c, In c t -> is_space c = false)
    (p_words p ++ (if Nat.eqb (p_stars p) 0 then [] else [stars (p_stars p)]))) as HFs.
  { apply Forall_app. split; [exact HF|]. destruct (Nat.eqb (p_stars p) 0) eqn:E; constructor; [|constructor].
    apply Nat.eqb_neq in E. now apply stars_nonspace. }
  set (tys := p_words p ++ (if Nat.eqb (p_stars p) 0 then [] else [stars (p_stars p)])) in *.
  assert (tys <> []) as Hne by (unfold tys; destruct (p_words p); [congruence|discriminate]).
  inversion He; subst.
  - destruct (text_eqb (p_name p) []) eqn:En.
    + apply text_eqb_eq in En. rewrite app_nil_r. fold tys. rewrite En.
      apply (gen_unnamed call_name b tys HFs Hne). unfold tys. destruct (Nat.eqb (p_stars p) 0) eqn:Es.
      * apply Nat.eqb_eq in Es. rewrite app_nil_r. destruct HG as [HG|HG]; [congruence|exact HG].
      * apply Nat.eqb_neq in Es. rewrite last_last. destruct (stars_last _ Es) as [m ->]. apply like_app. reflexivity.
    + destruct HG as [HG1 [HG2 HG3]]. rewrite app_assoc. fold tys.
      assert (blank b ++ join (T " ") (tys ++ [p_name p]) = (blank b ++ join (T " ") tys) ++ " "%char :: p_name p) as ->.
      { rewrite <- app_assoc. f_equal. clear - Hne. induction tys as [|t l IH]; [congruence|].
        destruct l as [|t2 l]; [reflexivity|]. cbn [app]. rewrite join_app1 by discriminate. 
        change (t2 :: l ++ [p_name p]) with ((t2 :: l) ++ [p_name p]). rewrite IH by discriminate.
        rewrite (join_app1 _ t (t2 :: l)) by discriminate. rewrite <- !app_assoc. reflexivity. }
      apply (gen_named call_name b tys " "%char (p_name p)) with (ty := T " "); auto.
      * rewrite <- app_assoc. reflexivity.
      * intros c [<-|[]]. reflexivity.
  - destruct (text_eqb (p_name p) []) eqn:En; [apply text_eqb_eq in En; congruence|]. destruct HG as [HG1 [HG2 HG3]].
    assert (Nat.eqb (p_stars p) 0 = false) as Es by now apply Nat.eqb_neq. 
    destruct (stars_last (p_stars p) H) as [m Em].
    assert (exists Y, blank b ++ join (T " ") tys = Y ++ ["*"%char] /\ blank b ++ join (T " ") (p_words p ++ [stars (p_stars p) ++ p_name p]) = Y ++ "*"%char :: p_name p) as [Y [EY1 EY2]].
    { assert (forall t, join (T " ") (p_words p ++ [t]) = join (T " ") (p_words p) ++ T " " ++ t) as J.
      { intros t. clear - Hw. induction (p_words p) as [|x l IH]; [congruence|].
        destruct l as [|t2 l]; [reflexivity|]. cbn [app]. rewrite join_app1 by discriminate.
        change (t2 :: l ++ [t]) with ((t2 :: l) ++ [t]). rewrite IH by discriminate.
        rewrite (join_app1 _ x (t2 :: l)) by discriminate. rewrite <- !app_assoc. reflexivity. }
      unfold tys. rewrite Es, !J, Em. exists (blank b ++ join (T " ") (p_words p) ++ T " " ++ stars m).
      split; rewrite <- !app_assoc; reflexivity. }
    rewrite EY2. apply (gen_named call_name b tys "*"%char (p_name p)) with (ty := []); auto.
    + rewrite app_nil_r. symmetry. exact EY1.
    + intros c [].
Qed.
