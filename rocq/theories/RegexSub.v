From Coq Require Import ZArith List Ascii String Bool Lia.
From Verif Require Import PyBase PyFacts RegexModel RegexFacts.
Import ListNotations.

(** ** A match is a part of the text *)
Lemma mat_inv {R} (r : regex) : forall p c (k : pos -> caps -> option R) x, mat r p c k = Some x ->
  exists w rest c', snd p = w ++ rest /\ k (rev w ++ fst p, rest) c' = Some x.
Proof.
  induction r as [f| |a IHa b IHb|a IHa b IHb|a IHa|n a IHa| | |]; intros p c k x; cbn [mat].
  - destruct p as [bf [|y s]]; cbn [fst snd]; [discriminate|]. destruct (f y); [|discriminate]. intros H. exists [y], s, c. auto.
  - intros H. exists [], (snd p), c. destruct p; auto.
  - intros H. apply IHa in H as (w & rest & c' & E & H). apply IHb in H as (w' & rest' & c'' & E' & H). cbn [fst snd] in *. exists (w ++ w'), rest', c''. rewrite E, E', <- app_assoc. split; [reflexivity|]. rewrite rev_app_distr, <- app_assoc. exact H.
  - destruct (mat a p c k) as [y|] eqn:E; [|apply IHb]. intros [= <-]. apply IHa in E. exact E.
  - generalize (S (List.length (snd p))). intros fuel. revert p c k x. induction fuel as [|fuel IH]; intros p c k x; cbn [star].
    + intros H. exists [], (snd p), c. destruct p; auto.
    + destruct (mat a p c _) as [y|] eqn:E.
      * intros [= <-]. apply IHa in E as (w & rest & c' & E & H). cbn [snd] in H. destruct (Nat.ltb _ _); [|discriminate]. apply IH in H as (w' & rest' & c'' & E' & H). cbn [fst snd] in *.
        exists (w ++ w'), rest', c''. rewrite E, E', <- app_assoc. split; [reflexivity|]. rewrite rev_app_distr, <- app_assoc. exact H.
      * intros H. exists [], (snd p), c. destruct p; auto.
  - intros H. apply IHa in H as (w & rest & c' & E & H). eauto 6.
  - destruct p as [[|y b] s]; cbn [fst snd]; [|discriminate]. intros H. exists [], s, c. auto.
  - destruct p as [b [|y [|z s]]]; cbn [fst snd]; [intros H; exists [], [], c; auto| |discriminate]. destruct (Ascii.eqb y newline); [|discriminate]. intros H. exists [], [y], c. auto.
  - destruct (xorb _ _); [|discriminate]. intros H. exists [], (snd p), c. destruct p; auto.
Qed.
Lemma match_at_inv r b s m : match_at r (b, s) = Some m -> m_before m = rev b /\ s = m_text m ++ m_after m.
Proof.
  unfold match_at. destruct (mat r (b, s) [] _) as [[[b' s'] c]|] eqn:E; [|discriminate]. intros [= <-]. apply mat_inv in E as (w & rest & c' & E & H). cbn [fst snd] in *. injection H as <- <- <-. subst s.
  cbn [m_before m_text m_after]. rewrite firstn_part. auto.
Qed.
Lemma search_inv r s : forall b m, search_from r b s = Some m -> exists pre, m_before m = rev b ++ pre /\ s = pre ++ m_text m ++ m_after m.
Proof.
  induction s as [|c s IH]; intros b m; cbn [search_from].
  - destruct (match_at r (b, [])) as [m'|] eqn:E; [|discriminate]. intros [= <-]. apply match_at_inv in E as [E1 E2]. exists []. rewrite app_nil_r. auto.
  - destruct (match_at r (b, c :: s)) as [m'|] eqn:E; [intros [= <-]; apply match_at_inv in E as [E1 E2]; exists []; rewrite app_nil_r; auto|].
    intros H. apply IH in H as (pre & E1 & E2). exists (c :: pre). cbn [rev] in E1. rewrite <- app_assoc in E1. split; [exact E1|]. cbn [app]. now rewrite E2 at 1.
Qed.

(** ** Substitutions, from left to right *)
Definition subs (r : regex) (f : rmatch -> res text) (b s t : text) : Prop := forall fuel, (List.length s < fuel)%nat -> sub_aux fuel r f b s = Ok t.
Lemma subs_end r f b : match_at r (b, []) = None -> subs r f b [] [].
Proof. intros H [|fuel] Hf; [lia|]. cbn [sub_aux search_from]. now rewrite H. Qed.
Lemma subs_skip r f b c s t : match_at r (b, c :: s) = None -> subs r f (c :: b) s t -> subs r f b (c :: s) (c :: t).
Proof.
  intros H Hs fuel Hf. destruct fuel as [|fuel]; [lia|]. specialize (Hs (S fuel) ltac:(cbn in Hf; lia)). cbn [sub_aux] in *. cbn [search_from]. rewrite H.
  destruct (search_from r (c :: b) s) as [m|] eqn:E; [|injection Hs as <-; reflexivity]. apply search_inv in E as (pre & E1 & E2). destruct (f m) as [u|e]; [|discriminate]. cbn [bind] in *.
  destruct (sub_aux fuel r f (rev (m_text m) ++ rev (m_before m)) (m_after m)) as [v|e]; [|discriminate]. cbn [bind] in *. injection Hs as <-. rewrite E1. cbn [rev]. rewrite <- app_assoc. cbn [app].
  assert (forall (x y : text) n, n = List.length x -> skipn n (x ++ y) = y) as Hsk by (intros x y n ->; rewrite skipn_app, skipn_all, Nat.sub_diag; reflexivity).
  rewrite (Hsk (rev b) (c :: pre)) by (now rewrite rev_length). replace (rev b ++ c :: pre) with ((rev b ++ [c]) ++ pre) by now rewrite <- app_assoc.
  assert (skipn (S (List.length b)) ((rev b ++ [c]) ++ pre) = pre) as Hp by (apply Hsk; rewrite app_length, rev_length; cbn; lia).
  change (skipn (S (List.length b)) ((rev b ++ [c]) ++ pre)) with (match (rev b ++ [c]) ++ pre with [] => [] | _ :: l => skipn (List.length b) l end) in Hp. now rewrite Hp.
Qed.
Lemma subs_skips r f w : forall b s t, (forall w1 c w2, w = w1 ++ c :: w2 -> match_at r (rev w1 ++ b, c :: w2 ++ s) = None) -> subs r f (rev w ++ b) s t -> subs r f b (w ++ s) (w ++ t).
Proof.
  induction w as [|c w IH]; intros b s t H Hs; [exact Hs|]. cbn [app]. apply subs_skip; [apply (H [] c w eq_refl)|]. apply IH.
  - intros w1 d w2 E. specialize (H (c :: w1) d w2). cbn [rev] in H. rewrite <- app_assoc in H. apply H. now rewrite E.
  - cbn [rev] in Hs. now rewrite <- app_assoc in Hs.
Qed.
Lemma subs_match r f b w s m u t : match_at r (b, w ++ s) = Some m -> m_text m = w -> w <> [] -> f m = Ok u -> subs r f (rev w ++ b) s t -> subs r f b (w ++ s) (u ++ t).
Proof.
  intros H Hw Hn Hf Hs fuel Hl. destruct fuel as [|fuel]; [lia|]. pose proof (match_at_inv _ _ _ _ H) as [E1 E2]. rewrite Hw in E2. apply app_inv_head in E2. cbn [sub_aux].
  assert (search_from r b (w ++ s) = Some m) as ->. { destruct w as [|c w]; [congruence|]. cbn [app search_from]. cbn [app] in H. now rewrite H. }
  rewrite Hf. cbn [bind]. rewrite Hw, E1, rev_involutive, <- E2. rewrite Hs; [|rewrite app_length in Hl; destruct w; [congruence|cbn in Hl; lia]]. cbn [bind].
  rewrite <- (rev_length b) at 1. now rewrite skipn_all.
Qed.
Lemma subs_re r f s t : subs r f [] s t -> re_sub r f s = Ok t.
Proof. intros H. apply H. lia. Qed.

(** ** What can be matched *)
Lemma star_set_inv {R} f fuel : forall b s c (k : pos -> caps -> option R) x, star (mat (RSet f)) fuel (b, s) c k = Some x ->
  exists w rest, s = w ++ rest /\ Forall (fun y => f y = true) w /\ k (rev w ++ b, rest) c = Some x.
Proof.
  induction fuel as [|fuel IH]; intros b s c k x; cbn [star]; [intros H; exists [], s; auto|].
  destruct (mat (RSet f) (b, s) c _) as [y|] eqn:E; [|intros H; exists [], s; auto]. intros [= <-]. cbn [mat snd fst] in E. destruct s as [|z s]; [discriminate|]. destruct (f z) eqn:Ef; [|discriminate].
  cbn [snd] in E. destruct (Nat.ltb _ _); [|discriminate]. apply IH in E as (w & rest & -> & Hw & H). exists (z :: w), rest. split; [reflexivity|]. split; [constructor; auto|]. cbn [rev]. now rewrite <- app_assoc.
Qed.
Lemma plus_set_inv {R} f b s c (k : pos -> caps -> option R) x : mat (rplus (RSet f)) (b, s) c k = Some x ->
  exists w rest, s = w ++ rest /\ w <> [] /\ Forall (fun y => f y = true) w /\ k (rev w ++ b, rest) c = Some x.
Proof.
  unfold rplus. cbn [mat snd fst]. destruct s as [|z s]; [discriminate|]. destruct (f z) eqn:Ef; [|discriminate]. intros H. apply star_set_inv in H as (w & rest & -> & Hw & H).
  exists (z :: w), rest. split; [reflexivity|]. split; [discriminate|]. split; [constructor; auto|]. cbn [rev]. now rewrite <- app_assoc.
Qed.
(** ** A final newline does not appear *)
Definition no_nl (s : text) : Prop := forall s', s <> s' ++ [newline].
Lemma no_nl_app a b : no_nl a -> no_nl b -> no_nl (a ++ b).
Proof.
  intros Ha Hb s' E. destruct b as [|c b]; [rewrite app_nil_r in E; eapply Ha; exact E|]. destruct (@exists_last _ (c :: b) ltac:(discriminate)) as (l & d & El). rewrite El, app_assoc in E. apply app_inj_tail in E as [_ ->].
  eapply Hb. exact El.
Qed.
Lemma no_nl_tail a b : no_nl (a ++ b) -> no_nl b.
Proof. intros H s' E. apply (H (a ++ s')). now rewrite E, app_assoc. Qed.
Lemma no_nl_tail2 a b : b <> [] -> no_nl b -> no_nl (a ++ b).
Proof.
  intros Hn Hb s' E. destruct (@exists_last _ b Hn) as (l & d & El). rewrite El, app_assoc in E. apply app_inj_tail in E as [_ ->]. eapply Hb. exact El.
Qed.
Lemma sub_no_nl r f : (forall m t, f m = Ok t -> (t <> [] /\ no_nl t) \/ t = m_text m) ->
  forall fuel b s t, no_nl s -> sub_aux fuel r f b s = Ok t -> no_nl t /\ (t = [] -> s = []).
Proof.
  intros Hf. induction fuel as [|fuel IH]; intros b s t Hs; cbn [sub_aux]; [intros [= <-]; auto|].
  destruct (search_from r b s) as [m|] eqn:E; [|intros [= <-]; auto]. apply search_inv in E as (pre & E1 & E2). destruct (f m) as [u|e] eqn:Em; [|discriminate]. cbn [bind].
  destruct (sub_aux fuel r f (rev (m_text m) ++ rev (m_before m)) (m_after m)) as [v|e] eqn:Es; [|discriminate]. cbn [bind]. intros [= <-].
  replace (skipn (List.length b) (m_before m)) with pre. 2:{ rewrite E1, <- (rev_length b), skipn_app, skipn_all, Nat.sub_diag. reflexivity. }
  subst s. apply IH in Es as [H1 H2]; [|rewrite app_assoc in Hs; now apply no_nl_tail in Hs]. apply Hf in Em as [[Hu1 Hu2]| ->].
  - split.
    + destruct v as [|c v]; [rewrite app_nil_r; now apply no_nl_tail2|]. rewrite app_assoc. apply no_nl_tail2; [discriminate|exact H1].
    + intros E. apply app_eq_nil in E as [_ E]. apply app_eq_nil in E as [E _]. congruence.
  - split.
    + destruct v as [|c v]; [rewrite H2 in Hs by reflexivity; exact Hs|]. rewrite app_assoc. apply no_nl_tail2; [discriminate|exact H1].
    + intros E. apply app_eq_nil in E as [-> E]. apply app_eq_nil in E as [-> E]. rewrite H2; auto.
Qed.
