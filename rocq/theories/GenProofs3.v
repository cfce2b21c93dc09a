(** * GenProofs3: from the header to the table *)
From Coq Require Import ZArith List Ascii String Bool Lia Sorted Permutation.
From Verif Require Import PyBase PyFacts GenModel GenSpec GenProofs GenProofs2.
Import ListNotations.
Open Scope Z_scope.

(** ** The words of a parameter *)
Lemma contains_skip p a b : p <> [] -> (forall c, In c a -> ~ In c p) -> contains p (a ++ b) = contains p b.
Proof.
  intros Hp H. induction a as [|c a IH]; [reflexivity|]. rewrite <- IH by (intros x Hx; apply H; now right).
  unfold contains. cbn [app find_sub]. 
  assert (starts_with p (c :: a ++ b) = false) as ->.
  { destruct p as [|x p]; [congruence|]. cbn. destruct (Ascii.eqb x c) eqn:E; [|reflexivity]. apply Ascii.eqb_eq in E. subst.
    destruct (H c); now left. }
  destruct (find_sub p (a ++ b)); reflexivity.
Qed.

Lemma star_not_user c n : In c (stars n) -> ~ In c (T "__user").
Proof. intros H. apply repeat_spec in H. subst. cbn. intros H. repeat (destruct H as [H|H]; [discriminate|]). destruct H. Qed.

Lemma word_stars n : n <> O -> word (stars n).
Proof.
  intros H. split; [now apply stars_nonspace|]. intros c Hc. apply repeat_spec in Hc. subst. repeat split; discriminate.
Qed.

Lemma ending_clean p e : good_param p -> ending p e -> Forall plain_word e.
Proof.
  intros [_ [_ HG]] He. destruct He as [|Hs Hn].
  - apply Forall_app. split.
    + destruct (Nat.eqb (p_stars p) 0) eqn:E; constructor; [|constructor]. apply Nat.eqb_neq in E.
      split; [now apply word_stars|]. rewrite <- (app_nil_r (stars _)), contains_skip; [reflexivity|discriminate|].
      intros c Hc. now apply (star_not_user c (p_stars p)).
    + destruct (text_eqb (p_name p) []); constructor; [|constructor]. apply HG.
  - constructor; [|constructor]. destruct (text_eqb (p_name p) []) eqn:E; [apply text_eqb_eq in E; congruence|].
    destruct HG as [[[HG1 HG2] HG3] _]. split.
    + split; [destruct (p_stars p); [congruence|discriminate]|]. intros c Hc. apply in_app_or in Hc as [Hc|Hc]; [|now apply HG2].
      exact (proj2 (word_stars _ Hs) c Hc).
    + rewrite contains_skip; [exact HG3|discriminate|]. intros c Hc. now apply (star_not_user c (p_stars p)).
Qed.

Lemma tokens_written p ts a : good_param p -> tokens p ts -> spaced ts a ->
  written ts a /\ exists e, ending p e /\ users ts = p_words p ++ e /\ Forall plain_word (p_words p ++ e).
Proof.
  intros HG [[e [He Hu]] Hl] Hs. pose proof (ending_clean p e HG He) as Hc. pose proof HG as [Hw [HW _]].
  assert (Forall plain_word (p_words p ++ e)) as HF by (apply Forall_app; split; assumption).
  split; [|exists e; repeat split; assumption]. split; [exact Hs|]. split; [|split; [exact Hl|]].
  - apply Forall_forall. intros t Ht. destruct (text_eqb t (T "__user")) eqn:E; [left; now apply text_eqb_eq|right].
    rewrite Forall_forall in HF. apply HF. rewrite <- Hu. apply filter_In. split; [exact Ht|]. rewrite E. reflexivity.
  - unfold users. rewrite Hu. destruct (p_words p); [congruence|discriminate].
Qed.

Lemma join_no c sep l : ~ In c sep -> (forall t, In t l -> ~ In c t) -> ~ In c (join sep l).
Proof.
  intros Hs. induction l as [|t l IH]; intros H; [intros []|]. rewrite join_cons. intros Hin. apply in_app_or in Hin as [Hin|Hin].
  - apply (H t); [now left|exact Hin].
  - destruct l as [|t2 l]; [destruct Hin|]. apply in_app_or in Hin as [Hin|Hin]; [contradiction|].
    apply IH; [intros x Hx; apply H; now right|exact Hin].
Qed.

Lemma join_void ts : Forall plain_word ts -> join (T " ") ts = T "void" -> ts = [T "void"].
Proof.
  intros H E. destruct ts as [|t ts]; [discriminate|]. rewrite join_cons in E. destruct ts as [|t2 ts]; [rewrite app_nil_r in E; now rewrite E|].
  exfalso. assert (In " "%char (T "void")) as Hin by (rewrite <- E; apply in_or_app; right; now left).
  cbn in Hin. repeat (destruct Hin as [Hin|Hin]; [discriminate|]). destruct Hin.
Qed.

Lemma Forall2_exists {A B C} (P : A -> C -> Prop) (Q : C -> B -> Prop) la lb :
  Forall2 (fun a b => exists c, P a c /\ Q c b) la lb -> exists lc, Forall2 P la lc /\ Forall2 Q lc lb.
Proof.
  induction 1 as [|a b la lb [c [H1 H2]] _ [lc [H3 H4]]]; [exists []; split; constructor|].
  exists (c :: lc). split; constructor; assumption.
Qed.

Definition piece (x : bool * list text) : text := blank (fst x) ++ join (T " ") (users (snd x)).

Lemma gen_all name : forall ps tss bs, Forall good_param ps -> List.length bs = List.length tss ->
  Forall2 (fun p ts => exists e, ending p e /\ users ts = p_words p ++ e /\ Forall plain_word (p_words p ++ e)) ps tss ->
  mapM (gen_arg name) (map piece (combine bs tss)) = Ok (map (fun p => (shown_type name p, p_name p)) ps).
Proof.
  induction ps as [|p ps IH]; intros tss bs HG HL H; inversion H as [|? ts ? tss' [e [He [Hu _]]] H2]; subst; destruct bs as [|b bs]; try discriminate; [reflexivity|].
  inversion HG; subst. cbn [combine map mapM]. unfold piece at 1. cbn [fst snd]. rewrite Hu, gen_param by assumption.
  cbn [bind]. rewrite IH; [reflexivity|assumption|now injection HL|assumption].
Qed.

Lemma args_some name ps args : ps <> [] -> Forall good_param ps ->
  Forall2 (fun p a => exists ts, tokens p ts /\ spaced ts a) ps args ->
  gen_args name (join (T ",") args) = Ok (map (fun p => (shown_type name p, p_name p)) ps).
Proof.
  intros Hne HG H. unfold gen_args. rewrite norm_nrm, remove_join.
  apply Forall2_exists in H as [tss [H1 H2]].
  assert (Forall2 (fun p ts => exists e, ending p e /\ users ts = p_words p ++ e /\ Forall plain_word (p_words p ++ e)) ps tss
          /\ Forall2 written tss args) as [Hps Hwr].
  { clear Hne. revert args H2 HG. induction H1 as [|p ts ps tss Ht H1 IH]; intros args H2 HG; inversion H2; subst; [split; constructor|].
    inversion HG; subst. destruct (tokens_written p ts y) as [W1 W2]; try assumption.
    destruct (IH l') as [I1 I2]; try assumption. split; constructor; assumption. }
  clear H1 H2.
  assert (args <> []) as Ha by (intros ->; inversion Hwr; subst; inversion Hps; subst; congruence).
  destruct (nrm_args tss args false Ha Hwr) as [bs [HL [Hb E]]]. fold piece in E. rewrite E. clear E.
  assert (split_char ","%char (join (T ",") (map piece (combine bs tss))) = map piece (combine bs tss)) as Hsp.
  { apply split_join.
    - destruct bs, tss; try discriminate. inversion Hps; subst; congruence.
    - intros t Ht. apply in_map_iff in Ht as [[b ts] [<- Hin]]. apply in_combine_r in Hin. unfold piece. cbn [fst snd].
      assert (Forall plain_word (users ts)) as HF.
      { clear - Hps Hin. induction Hps as [|p x ps tss [e [_ [Hu HF]]] _ IH]; [destruct Hin|]. destruct Hin as [<-|Hin]; [rewrite Hu; exact HF|auto]. }
      intros Hc. apply in_app_or in Hc as [Hc|Hc].
      + destruct b; cbn in Hc; [destruct Hc as [Hc|[]]; discriminate|destruct Hc].
      + revert Hc. apply join_no; [intros [Hc|[]]; discriminate|]. intros t Ht Hc. rewrite Forall_forall in HF. destruct (HF t Ht) as [[_ HW] _].
        destruct (HW _ Hc) as [_ [HW2 _]]. congruence. }
  assert (text_eqb (join (T ",") (map piece (combine bs tss))) (T "void") = false) as ->.
  { apply text_eqb_neq. intros E. rewrite E in Hsp. change (split_char ","%char (T "void")) with [T "void"] in Hsp.
    destruct bs as [|b bs], tss as [|ts tss]; try discriminate. destruct tss as [|ts2 tss]; [|destruct bs; discriminate].
    destruct bs; [|discriminate]. cbn [combine map] in Hsp. injection Hsp as Hsp. cbn in Hb. rewrite (Hb eq_refl) in Hsp. unfold piece in Hsp. cbn [blank fst snd app] in Hsp.
    inversion Hps as [|p ? ps' ? [e [He [Hu HF]]] H3]; subst. inversion H3; subst. rewrite Hu in Hsp. symmetry in Hsp.
    pose proof (join_void _ HF Hsp) as Ew. inversion HG as [|? ? [G1 [_ G3]] _]; subst.
    destruct (p_words p) as [|w l] eqn:Ewp; [congruence|]. injection Ew as Ew1 Ew2. subst w. apply app_eq_nil in Ew2 as [-> Ee]. subst e.
    inversion He as [He1|]; subst. destruct (Nat.eqb (p_stars p) 0) eqn:Es; [|discriminate]. apply Nat.eqb_eq in Es.
    destruct (text_eqb (p_name p) []) eqn:En; [|discriminate]. destruct G3 as [G3|G3]; [congruence|]. vm_compute in G3. discriminate. }
  rewrite Hsp. apply gen_all; assumption.
Qed.

Lemma args_good d args : good d ->
  match d_params d with
  | [] => exists a, args = [a] /\ spaced [T "void"] a
  | ps => Forall2 (fun p a => exists ts, tokens p ts /\ spaced ts a) ps args
  end ->
  gen_args (d_name d) (join (T ",") args) = Ok (map (fun p => (shown_type (d_name d) p, p_name p)) (d_params d)).
Proof.
  intros [_ HG] H. destruct (d_params d) as [|p0 ps0] eqn:Ep; [|apply args_some; [discriminate|assumption|assumption]].
  destruct H as [a [-> Hs]]. unfold gen_args. rewrite norm_nrm, remove_join. cbn [map join].
  destruct (nrm_spaced [T "void"] a false [] ltac:(discriminate) Hs) as [b [Hb E]].
  - constructor; [|constructor]. right. split; [|reflexivity]. split; [discriminate|]. intros c Hc. cbn in Hc.
    repeat (destruct Hc as [<-|Hc]; [repeat split; discriminate|]). destruct Hc.
  - discriminate.
  - rewrite app_nil_r in E. rewrite E, (Hb eq_refl). reflexivity.
Qed.

(** ** The declarations of the header *)
Lemma no_close_args d args : good d ->
  match d_params d with
  | [] => exists a, args = [a] /\ spaced [T "void"] a
  | ps => Forall2 (fun p a => exists ts, tokens p ts /\ spaced ts a) ps args
  end -> ~ In ")"%char (join (T ",") args).
Proof.
  intros [_ HG] H. apply join_no; [intros [Hc|[]]; discriminate|].
  assert (forall ts s, spaced ts s -> (forall t, In t ts -> ~ In ")"%char t) -> ~ In ")"%char s) as HS.
  { intros ts s [ws [_ [HW [_ ->]]]] Ht Hin. apply in_concat in Hin as [x [Hx Hin]]. apply in_map_iff in Hx as [[w t] [<- Hx]]. cbn in Hin.
    apply in_app_or in Hin as [Hin|Hin].
    - apply in_combine_l in Hx. rewrite Forall_forall in HW. apply (HW w Hx) in Hin. discriminate.
    - apply in_combine_r in Hx. exact (Ht t Hx Hin). }
  destruct (d_params d) as [|p ps].
  - destruct H as [a [-> Hs]]. intros t [<-|[]]. apply (HS _ _ Hs). intros t [<-|[]]. cbn. intros Hc.
    repeat (destruct Hc as [Hc|Hc]; [discriminate|]). destruct Hc.
  - revert HG. generalize dependent (p :: ps). clear p ps. intros ps H. induction H as [|p a ps args [ts [Ht Hs]] H IH]; intros HG t Hin; [destruct Hin|].
    inversion HG; subst. destruct Hin as [<-|Hin]; [|now apply IH].
    destruct (tokens_written p ts a) as [[_ [HC _]] _]; try assumption.
    apply (HS _ _ Hs). intros t Hin Hc. rewrite Forall_forall in HC. destruct (HC t Hin) as [->|[[_ HW] _]].
    + cbn in Hc. repeat (destruct Hc as [Hc|Hc]; [discriminate|]). destruct Hc.
    + destruct (HW _ Hc) as [_ [_ [_ H0]]]. congruence.
Qed.

Lemma match_decl_text d t r : good d -> decl_text d t -> exists args, match_decl (t ++ r) = Some (d_name d, args, r)
  /\ gen_args (d_name d) args = Ok (map (fun p => (shown_type (d_name d) p, p_name p)) (d_params d)).
Proof.
  intros HG [prefix [args [Hp [-> Ha]]]]. exists (join (T ",") args). split; [|now apply args_good].
  pose proof (no_close_args d args HG Ha) as Hc. destruct HG as [Hn _].
  assert (match_decl ((prefix ++ d_name d ++ T "(" ++ join (T ",") args ++ T ")") ++ r) =
    match split1 "("%char ((d_name d ++ T "(" ++ join (T ",") args ++ T ")") ++ r) with
      | Some (name, s) =>
          match split1 ")"%char s with
          | Some (args, s) => Some (name, args, s)
          | None => None
          end
      | None => None
      end) as ->.
  { unfold match_decl. destruct Hp as [<-|[<-|[]]]; reflexivity. }
  assert (split1 "("%char ((d_name d ++ T "(" ++ join (T ",") args ++ T ")") ++ r) = Some (d_name d, join (T ",") args ++ T ")" ++ r)) as ->.
  { apply split1_spec. split; [rewrite <- !app_assoc; reflexivity|exact Hn]. }
  assert (split1 ")"%char (join (T ",") args ++ T ")" ++ r) = Some (join (T ",") args, r)) as ->.
  { apply split1_spec. split; [reflexivity|exact Hc]. }
  reflexivity.
Qed.

Lemma match_decl_shorter s n a r : match_decl s = Some (n, a, r) -> (List.length r < List.length s)%nat.
Proof.
  unfold match_decl. destruct (starts_with (T "asmlinkage long sys") s) eqn:E; [|discriminate].
  set (s1 := skipn (List.length (T "asmlinkage long sys")) s).
  set (s2 := if starts_with (T "32_") s1 then skipn 2 s1 else s1).
  destruct (starts_with (T "_") s2); [|discriminate].
  destruct (split1 "("%char (skipn 1 s2)) as [[n1 s3]|] eqn:E1; [|discriminate].
  destruct (split1 ")"%char s3) as [[a1 s4]|] eqn:E2; [|discriminate]. intros H. injection H as <- <- <-.
  apply split1_spec in E1 as [E1 _]. apply split1_spec in E2 as [E2 _].
  apply (f_equal (@List.length _)) in E1, E2. rewrite app_length in E1, E2. cbn [List.length] in E1, E2.
  rewrite skipn_length in E1. assert (List.length s1 <= List.length s)%nat as H1 by (unfold s1; rewrite skipn_length; lia).
  assert (List.length s2 <= List.length s1)%nat as H2 by (unfold s2; destruct (starts_with _ s1); rewrite ?skipn_length; lia).
  lia.
Qed.

Lemma find_fuel : forall n bol s f1 f2, (List.length s < n)%nat -> (List.length s < f1)%nat -> (List.length s < f2)%nat ->
  find_decls f1 bol s = find_decls f2 bol s.
Proof.
  induction n as [|n IH]; intros bol s f1 f2 Hn H1 H2; [lia|]. destruct f1 as [|f1]; [lia|]. destruct f2 as [|f2]; [lia|].
  cbn [find_decls]. destruct (if bol then match_decl s else None) as [[[nm a] r]|] eqn:E.
  - destruct bol; [|discriminate]. apply match_decl_shorter in E. f_equal. apply IH; lia.
  - destruct s as [|c s]; [reflexivity|]. cbn in *. apply IH; lia.
Qed.

Definition found (bol : bool) (s : text) := find_decls (S (List.length s)) bol s.

Lemma found_char (bol : bool) c s : (if bol then match_decl (c :: s) else None) = None -> found bol (c :: s) = found (Ascii.eqb c "010"%char) s.
Proof. intros H. unfold found. cbn [find_decls]. rewrite H. reflexivity. Qed.

Lemma found_rest l s : ~ In "010"%char l -> found false (l ++ newline ++ s) = found true s.
Proof.
  induction l as [|c l IH]; intros H; [apply (found_char false "010"%char s); reflexivity|]. cbn [app]. rewrite found_char by reflexivity.
  assert (Ascii.eqb c "010"%char = false) as ->. { apply Ascii.eqb_neq. intros ->. apply H. now left. }
  apply IH. intros Hin. apply H. now right.
Qed.

Lemma match_decl_none s : starts_with (T "asmlinkage long sys_") s = false -> starts_with (T "asmlinkage long sys32_") s = false -> match_decl s = None.
Proof.
  intros H1 H2. unfold match_decl. destruct (starts_with (T "asmlinkage long sys") s) eqn:E; [|reflexivity].
  apply starts_with_spec in E as [r ->].
  change (starts_with (T "asmlinkage long sys_") (T "asmlinkage long sys" ++ r)) with (starts_with (T "_") r) in H1.
  change (starts_with (T "asmlinkage long sys32_") (T "asmlinkage long sys" ++ r)) with (starts_with (T "32_") r) in H2.
  change (skipn (List.length (T "asmlinkage long sys")) (T "asmlinkage long sys" ++ r)) with r. rewrite H2, H1. reflexivity.
Qed.

Lemma found_line l s : ~ In "010"%char l -> starts_with (T "asmlinkage long sys_") l = false -> starts_with (T "asmlinkage long sys32_") l = false ->
  found true (l ++ newline ++ s) = found true s.
Proof.
  intros Hn H1 H2.
  assert (match_decl (l ++ newline ++ s) = None) as HM.
  { apply match_decl_none; cbn [newline app]; rewrite sw_sep; try assumption; cbn;
    intros Hc; repeat (destruct Hc as [Hc|Hc]; [discriminate|]); destruct Hc. }
  destruct l as [|c l]; [apply (found_char true "010"%char s); exact HM|]. cbn [app] in *. rewrite found_char by exact HM.
  assert (Ascii.eqb c "010"%char = false) as ->. { apply Ascii.eqb_neq. intros ->. apply Hn. now left. }
  apply found_rest. intros Hin. apply Hn. now right.
Qed.

Lemma found_decl d t r : good d -> decl_text d t -> exists args, found true (t ++ r) = (d_name d, args) :: found false r
  /\ gen_args (d_name d) args = Ok (map (fun p => (shown_type (d_name d) p, p_name p)) (d_params d)).
Proof.
  intros HG Ht. destruct (match_decl_text d t r HG Ht) as [args [HM HA]]. exists args. split; [|exact HA].
  pose proof (match_decl_shorter _ _ _ _ HM) as HL. unfold found at 1. change (find_decls (S (List.length (t ++ r))) true (t ++ r)) with
    (match match_decl (t ++ r) with Some (name, args, s) => (name, args) :: find_decls (List.length (t ++ r)) false s
     | None => match t ++ r with [] => [] | c :: s => find_decls (List.length (t ++ r)) (Ascii.eqb c "010"%char) s end end).
  rewrite HM. f_equal. apply (find_fuel (S (List.length r))); lia.
Qed.

(** ** The dictionary *)
Definition value_of (d : decl) : prototype := (T "long", map (fun p => (shown_type (d_name d) p, p_name p)) (d_params d)).
Definition table (ds : list decl) (t : list (text * prototype)) : list (text * prototype) :=
  fold_left (fun t d => dset text_eqb (d_name d) (value_of d) t) ds t.

Lemma header_table s ds : header s ds -> Forall good ds -> forall t, gen_table (found true s) t = Ok (table ds t).
Proof.
  induction 1 as [|l s ds H1 H2 H3 H IH|d tx l s ds Ht Hl H IH]; intros HG t; [reflexivity| |].
  - rewrite found_line by assumption. now apply IH.
  - inversion HG; subst. destruct (found_decl d tx (l ++ newline ++ s)) as [args [-> HA]]; try assumption.
    cbn [gen_table]. rewrite HA. cbn [bind]. rewrite found_rest by exact Hl. now apply IH.
Qed.

(** ** Sorting *)
Lemma text_leb_total a b : text_leb a b = true \/ text_leb b a = true.
Proof.
  revert b. induction a as [|x a IH]; intros [|y b]; cbn; try (now left); try (now right).
  destruct (b2z x <? b2z y) eqn:E1; [now left|]. destruct (b2z y <? b2z x) eqn:E2; [now right|]. apply IH.
Qed.

Lemma text_leb_lt a b : text_leb a b = true -> a = b \/ text_lt a b.
Proof.
  revert b. induction a as [|x a IH]; intros [|y b] H; cbn in H; try discriminate; [now left|right; constructor|].
  destruct (b2z x <? b2z y) eqn:E1; [right; constructor; now apply Z.ltb_lt|]. destruct (b2z y <? b2z x) eqn:E2; [discriminate|].
  apply Z.ltb_ge in E1, E2. assert (x = y) by (apply b2z_inj; lia). subst y.
  destruct (IH b H) as [->|H2]; [now left|right; now constructor].
Qed.

Lemma text_lt_trans a b c : text_lt a b -> text_lt b c -> text_lt a c.
Proof.
  intros H. revert c. induction H; intros c0 H2; inversion H2; subst; try (constructor; lia); try (constructor; assumption).
  apply lt_rest. now apply IHtext_lt.
Qed.

Lemma insert_perm x l : Permutation (x :: l) (insert_text x l).
Proof.
  induction l as [|y l IH]; [reflexivity|]. cbn. destruct (text_leb x y); [reflexivity|].
  rewrite perm_swap. now constructor.
Qed.
Lemma sorted_perm l : Permutation l (sorted_texts l).
Proof. induction l as [|x l IH]; [reflexivity|]. cbn. rewrite <- insert_perm. now constructor. Qed.

Lemma insert_sorted x l : StronglySorted text_lt l -> ~ In x l -> StronglySorted text_lt (insert_text x l).
Proof.
  induction l as [|y l IH]; intros H Hx; cbn; [repeat constructor|]. inversion H as [|? ? H1 H2]; subst.
  destruct (text_leb x y) eqn:E.
  - apply text_leb_lt in E as [->|E]; [destruct Hx; now left|]. constructor; [exact H|]. constructor; [exact E|].
    rewrite Forall_forall in *. intros z Hz. apply (text_lt_trans x y z E). now apply H2.
  - constructor; [apply IH; [exact H1|intros Hin; apply Hx; now right]|].
    destruct (text_leb_total x y) as [E2|E2]; [rewrite E2 in E; discriminate|]. apply text_leb_lt in E2 as [->|E2]; [destruct Hx; now left|].
    rewrite Forall_forall in *. intros z Hz. apply (Permutation_in _ (Permutation_sym (insert_perm x l))) in Hz as [<-|Hz]; [exact E2|now apply H2].
Qed.
Lemma sorted_sorted l : NoDup l -> StronglySorted text_lt (sorted_texts l).
Proof.
  induction 1 as [|x l Hx H IH]; cbn; [constructor|]. apply insert_sorted; [exact IH|].
  intros Hin. apply Hx. exact (Permutation_in _ (Permutation_sym (sorted_perm l)) Hin).
Qed.

(** ** Last declarations *)
Definition tkeys (t : list (text * prototype)) := map fst t.
Lemma dset_keys k v t : NoDup (tkeys t) -> NoDup (tkeys (dset text_eqb k v t)) /\ forall x, In x (tkeys (dset text_eqb k v t)) <-> x = k \/ In x (tkeys t).
Proof.
  induction t as [|[k' v'] t IH]; intros H; cbn; [split; [repeat constructor; intros []|]; intros x; split; intros [H1|[]]; left; congruence|].
  inversion H as [|? ? H1 H2]; subst. destruct (text_eqb k k') eqn:E.
  - apply text_eqb_eq in E. subst k'. cbn. split; [exact H|]. intros x. split; [intros [->|Hx]; [now left|right; now right]|]. intros [->|[->|Hx]]; [now left|now left|now right].
  - destruct (IH H2) as [I1 I2]. cbn. split.
    + constructor; [|exact I1]. intros Hin. apply I2 in Hin as [->|Hin]; [rewrite text_eqb_refl in E; discriminate|contradiction].
    + intros x. rewrite I2. tauto.
Qed.
Lemma dset_get k v (t : list (text * prototype)) x : dget text_eqb x (dset text_eqb k v t) = if text_eqb x k then Some v else dget text_eqb x t.
Proof.
  induction t as [|[k' v'] t IH]; cbn; [reflexivity|]. destruct (text_eqb k k') eqn:E; cbn.
  - apply text_eqb_eq in E. subst k'. destruct (text_eqb x k); reflexivity.
  - rewrite IH. destruct (text_eqb x k') eqn:E2; [|reflexivity]. apply text_eqb_eq in E2. subst k'.
    destruct (text_eqb x k) eqn:E3; [|reflexivity]. apply text_eqb_eq in E3. subst. rewrite text_eqb_refl in E. discriminate.
Qed.

Lemma table_app a b t : table (a ++ b) t = table b (table a t).
Proof. unfold table. apply fold_left_app. Qed.

Lemma table_keys ds : forall t, NoDup (tkeys t) -> NoDup (tkeys (table ds t)) /\ forall x, In x (tkeys (table ds t)) <-> In x (tkeys t) \/ In x (map d_name ds).
Proof.
  induction ds as [|d ds IH]; intros t H; cbn; [split; [exact H|tauto]|].
  destruct (dset_keys (d_name d) (value_of d) t H) as [H1 H2]. destruct (IH _ H1) as [I1 I2]. split; [exact I1|].
  intros x. rewrite I2, H2. intuition congruence.
Qed.

Lemma table_get_other ds x : (forall d, In d ds -> d_name d <> x) -> forall t, dget text_eqb x (table ds t) = dget text_eqb x t.
Proof.
  induction ds as [|d ds IH]; intros H t; [reflexivity|]. cbn. fold (table ds (dset text_eqb (d_name d) (value_of d) t)).
  rewrite IH by (intros y Hy; apply H; now right). rewrite dset_get.
  assert (text_eqb x (d_name d) = false) as ->; [|reflexivity]. apply text_eqb_neq. intros E. apply (H d); [now left|congruence].
Qed.

Lemma table_get_last ds d t : last_of ds d -> dget text_eqb (d_name d) (table ds t) = Some (value_of d).
Proof.
  intros [a [b [-> Hb]]]. rewrite table_app. cbn. fold (table b (dset text_eqb (d_name d) (value_of d) (table a t))).
  rewrite table_get_other by exact Hb. rewrite dset_get, text_eqb_refl. reflexivity.
Qed.

Lemma last_exists ds x : In x (map d_name ds) -> exists d, last_of ds d /\ d_name d = x.
Proof.
  induction ds as [|d ds IH] using rev_ind; [intros []|]. rewrite map_app, in_app_iff. intros H.
  destruct (text_dec (d_name d) x) as [E|E].
  - exists d. split; [|exact E]. exists ds, []. split; [reflexivity|intros y []].
  - destruct H as [H|[H|[]]]; [|congruence]. destruct (IH H) as [d2 [[a [b [-> Hb]]] E2]]. exists d2. split; [|exact E2].
    exists a, (b ++ [d]). split; [rewrite <- app_assoc; reflexivity|]. intros y Hy. apply in_app_or in Hy as [Hy|[<-|[]]]; [now apply Hb|congruence].
Qed.

Lemma last_in_ds ds d : last_of ds d -> In (d_name d) (map d_name ds).
Proof. intros [a [b [-> _]]]. rewrite map_app. apply in_or_app. right. now left. Qed.

Lemma last_unique ds d d' : last_of ds d -> last_of ds d' -> d_name d = d_name d' -> d = d'.
Proof.
  intros [a [b [-> Hb]]] [a' [b' [E Hb']]] En.
  assert (forall a a' b b', a ++ d :: b = a' ++ d' :: b' -> (forall x, In x b -> d_name x <> d_name d) -> (forall x, In x b' -> d_name x <> d_name d') -> d = d') as H; [|now apply (H a a' b b')].
  clear - En. induction a as [|x a IH]; intros a' b b' E Hb Hb'; destruct a' as [|x' a']; cbn in E; injection E as E1 E2.
  - exact E1.
  - exfalso. apply (Hb d'); [rewrite E2; apply in_or_app; right; now left|congruence].
  - exfalso. apply (Hb' d); [rewrite <- E2; apply in_or_app; right; now left|exact En].
  - now apply (IH a' b b').
Qed.

Lemma entry_lines t d : dget text_eqb (d_name d) t = Some (value_of d) -> gen_entry t (d_name d) = Ok (entry d).
Proof.
  intros H. unfold gen_entry, entry, value_of in *. rewrite H. rewrite map_map. f_equal. cbn [app]. f_equal.
  - unfold quoted. rewrite <- !app_assoc. reflexivity.
  - f_equal. apply map_ext. intros p. unfold quoted. cbn [fst snd]. rewrite <- !app_assoc. reflexivity.
Qed.

Lemma decls_of ds names : (forall x, In x names -> In x (map d_name ds)) -> exists es, names = map d_name es /\ Forall (last_of ds) es.
Proof.
  induction names as [|x names IH]; intros H; [exists []; split; [reflexivity|constructor]|].
  destruct IH as [es [E1 E2]]; [intros y Hy; apply H; now right|]. destruct (last_exists ds x) as [d [H1 H2]]; [apply H; now left|].
  exists (d :: es). split; [cbn; congruence|now constructor].
Qed.

Lemma sorted_map es : StronglySorted text_lt (map d_name es) -> StronglySorted (fun a b => text_lt (d_name a) (d_name b)) es.
Proof.
  induction es as [|e es IH]; intros H; [constructor|]. cbn in H. inversion H as [|? ? H1 H2]; subst. constructor; [now apply IH|].
  rewrite Forall_forall in *. intros x Hx. apply H2. now apply in_map.
Qed.

Theorem codegen_table s ds : header s ds -> Forall good ds -> exists lines, codegen s = Ok lines /\ table_of ds lines.
Proof.
  intros H HG. unfold codegen. fold (found true s). rewrite (header_table s ds H HG). cbn [bind].
  destruct (table_keys ds [] (NoDup_nil _)) as [HN HK]. 
  assert (forall x, In x (sorted_texts (map fst (table ds []))) <-> In x (map d_name ds)) as HS.
  { intros x. split; intros Hx.
    - apply (Permutation_in _ (Permutation_sym (sorted_perm _))) in Hx. apply HK in Hx as [[]|Hx]. exact Hx.
    - apply (Permutation_in _ (sorted_perm _)). apply HK. now right. }
  destruct (decls_of ds (sorted_texts (map fst (table ds [])))) as [es [E1 E2]]; [intros x; apply HS|].
  assert (mapM (gen_entry (table ds [])) (sorted_texts (map fst (table ds []))) = Ok (map entry es)) as ->.
  { rewrite E1. clear - E2. induction E2 as [|d es Hd _ IH]; [reflexivity|]. cbn [map mapM].
    rewrite entry_lines by now apply table_get_last. cbn [bind]. rewrite IH. reflexivity. }
  cbn [bind]. eexists. split; [reflexivity|]. exists es. split; [|split; [|reflexivity]].
  - apply sorted_map. rewrite <- E1. now apply sorted_sorted.
  - intros d. split; intros Hd; [rewrite Forall_forall in E2; now apply E2|].
    assert (In (d_name d) (map d_name es)) as Hin by (rewrite <- E1; apply HS; now apply last_in_ds).
    apply in_map_iff in Hin as [d2 [E3 Hin]]. rewrite Forall_forall in E2.
    rewrite <- (last_unique ds d2 d (E2 d2 Hin) Hd E3). exact Hin.
Qed.
