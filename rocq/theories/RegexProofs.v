(** * RegexProofs: the matcher finds a match if and only if there is one, and what it finds is a match. *)
From Coq Require Import ZArith List Ascii Bool Lia Arith.
From Verif Require Import PyBase RegexModel RegexFacts RegexSub RegexSpec.
Import ListNotations.

Section Mat.
  Context {R : Type}.
  Lemma star_sound (a : regex) :
    (forall b s c (k : pos -> caps -> option R) x, mat a (b, s) c k = Some x -> exists w rest c', s = w ++ rest /\ den a b w rest c c' /\ k (rev w ++ b, rest) c' = Some x) ->
    forall fuel b s c (k : pos -> caps -> option R) x, star (mat a) fuel (b, s) c k = Some x ->
      exists w rest c', s = w ++ rest /\ iter (den a) b w rest c c' /\ k (rev w ++ b, rest) c' = Some x.
  Proof.
    intros IH. induction fuel as [|fuel IHf]; intros b s c k x; cbn [star]; [intros H; exists [], s, c; split; [reflexivity|]; split; [constructor|exact H]|].
    destruct (mat a (b, s) c _) as [y|] eqn:E.
    - intros [= <-]. apply IH in E as (w1 & s1 & c1 & -> & H1 & H). destruct (Nat.ltb_spec (length (snd (rev w1 ++ b, s1))) (length (snd (b, w1 ++ s1)))) as [Hl|Hl]; [|discriminate H].
      apply IHf in H as (w2 & rest & c2 & -> & H2 & H). exists (w1 ++ w2), rest, c2. rewrite app_assoc. split; [reflexivity|]. split.
      + econstructor; [|exact H1|exact H2]. intros ->. cbn in Hl. lia.
      + now rewrite rev_app_distr, <- app_assoc.
    - intros H. exists [], s, c. split; [reflexivity|]. split; [constructor|exact H].
  Qed.
  Lemma mat_sound (r : regex) : forall b s c (k : pos -> caps -> option R) x, mat r (b, s) c k = Some x ->
    exists w rest c', s = w ++ rest /\ den r b w rest c c' /\ k (rev w ++ b, rest) c' = Some x.
  Proof.
    induction r as [f| |r1 IH1 r2 IH2|r1 IH1 r2 IH2|r IH|n r IH| | |]; intros b s c k x; cbn [mat den fst snd].
    - destruct s as [|y s]; [discriminate|]. destruct (f y) eqn:Ey; [|discriminate]. intros H. exists [y], s, c. split; [reflexivity|]. split; [|exact H]. now exists y.
    - intros H. exists [], s, c. auto.
    - intros H. apply IH1 in H as (w1 & s1 & c1 & -> & H1 & H). apply IH2 in H as (w2 & rest & c2 & -> & H2 & H). exists (w1 ++ w2), rest, c2.
      split; [now rewrite app_assoc|]. split; [now exists w1, w2, c1|]. now rewrite rev_app_distr, <- app_assoc.
    - destruct (mat r1 (b, s) c k) as [y|] eqn:E.
      + intros [= <-]. apply IH1 in E as (w & rest & c' & H1 & H2 & H3). exists w, rest, c'. auto.
      + intros H. apply IH2 in H as (w & rest & c' & H1 & H2 & H3). exists w, rest, c'. auto.
    - apply star_sound. exact IH.
    - intros H. apply IH in H as (w & rest & c1 & -> & H1 & H). cbn [snd] in H. rewrite firstn_part in H. exists w, rest, (dset Nat.eqb n w c1). split; [reflexivity|]. split; [now exists c1|exact H].
    - destruct b; [|discriminate]. intros H. exists [], s, c. auto.
    - destruct s as [|y [|z s]]; [| |discriminate].
      + intros H. exists [], [], c. auto 10.
      + destruct (Ascii.eqb_spec y newline) as [->|]; [|discriminate]. intros H. exists [], [newline], c. auto 10.
    - destruct (xorb _ _) eqn:E; [|discriminate]. intros H. exists [], s, c. auto.
  Qed.
  Lemma star_complete (a : regex) :
    (forall b w rest c c' (k : pos -> caps -> option R), den a b w rest c c' -> k (rev w ++ b, rest) c' <> None -> mat a (b, w ++ rest) c k <> None) ->
    forall b w rest c c', iter (den a) b w rest c c' -> forall fuel (k : pos -> caps -> option R), (length (w ++ rest) < fuel)%nat -> k (rev w ++ b, rest) c' <> None ->
      star (mat a) fuel (b, w ++ rest) c k <> None.
  Proof.
    intros IH. induction 1 as [b rest c|b w1 w2 rest c c1 c2 Hn Hd Hi IHi]; intros fuel k Hf Hk; (destruct fuel as [|fuel]; [lia|]); cbn [star].
    - destruct (mat a _ c _); [discriminate|exact Hk].
    - rewrite <- app_assoc in *. match goal with |- match ?m with _ => _ end <> _ => destruct m eqn:E; [discriminate|] end. exfalso. revert E. apply (IH b w1 (w2 ++ rest) c c1); [exact Hd|].
      cbn [snd]. destruct (Nat.ltb_spec (length (w2 ++ rest)) (length (w1 ++ w2 ++ rest))) as [Hl|Hl].
      + apply IHi; [rewrite app_length in Hf; rewrite app_length in *; destruct w1; [congruence|cbn in *; lia]|]. rewrite rev_app_distr, <- app_assoc in Hk. exact Hk.
      + rewrite (app_length w1) in Hl. destruct w1; [congruence|cbn in Hl; lia].
  Qed.
  Lemma mat_complete (r : regex) : forall b w rest c c' (k : pos -> caps -> option R), den r b w rest c c' -> k (rev w ++ b, rest) c' <> None -> mat r (b, w ++ rest) c k <> None.
  Proof.
    induction r as [f| |r1 IH1 r2 IH2|r1 IH1 r2 IH2|r IH|n r IH| | |]; intros b w rest c c' k; cbn [mat den fst snd].
    - intros (x & -> & Hx & ->) Hk. cbn [app]. now rewrite Hx.
    - intros (-> & ->) Hk. exact Hk.
    - intros (w1 & w2 & c1 & -> & H1 & H2) Hk. rewrite <- app_assoc. apply (IH1 _ _ _ _ c1); [exact H1|]. apply (IH2 _ _ _ _ c'); [exact H2|]. now rewrite rev_app_distr, <- app_assoc in Hk.
    - intros [H|H] Hk; destruct (mat r1 _ c k) as [y|] eqn:E; try discriminate.
      + exfalso. revert E. now apply (IH1 _ _ _ _ c').
      + now apply (IH2 _ _ _ _ c').
    - intros H Hk. eapply star_complete; [exact IH|exact H|lia|exact Hk].
    - intros (c1 & H1 & ->) Hk. eapply IH; [exact H1|]. cbn [snd]. now rewrite firstn_part.
    - intros (-> & -> & ->) Hk. exact Hk.
    - intros (-> & -> & [->| ->]) Hk; exact Hk.
    - intros (-> & -> & Hb) Hk. cbn [app]. now rewrite Hb.
  Qed.
End Mat.

Lemma match_at_sound r b s m : match_at r (b, s) = Some m -> s = m_text m ++ m_after m /\ m_before m = rev b /\ den r b (m_text m) (m_after m) [] (m_groups m).
Proof.
  unfold match_at. destruct (mat r (b, s) [] _) as [[[b' s'] c]|] eqn:E; [|discriminate]. intros [= <-]. apply mat_sound in E as (w & rest & c' & -> & H & E). injection E as <- <- <-.
  cbn [m_text m_after m_before m_groups fst snd]. rewrite firstn_part. auto.
Qed.
Lemma match_at_complete r b w rest c' : den r b w rest [] c' -> match_at r (b, w ++ rest) <> None.
Proof.
  intros H. unfold match_at. destruct (mat r (b, w ++ rest) [] _) as [[p c]|] eqn:E; [discriminate|]. exfalso. revert E. eapply mat_complete; [exact H|discriminate].
Qed.
Lemma re_match_iff r s : (exists m, re_match r s = Some m) <-> exists w rest c, s = w ++ rest /\ den r [] w rest [] c.
Proof.
  split.
  - intros (m & H). apply match_at_sound in H as (H1 & _ & H2). eauto.
  - intros (w & rest & c & -> & H). apply match_at_complete in H. unfold re_match. destruct (match_at r ([], w ++ rest)) as [m|]; [now exists m|congruence].
Qed.
Lemma search_sound r s : forall b m, search_from r b s = Some m -> exists pre, s = pre ++ m_text m ++ m_after m /\ m_before m = rev b ++ pre /\ den r (rev pre ++ b) (m_text m) (m_after m) [] (m_groups m) /\
  forall pre1 x pre2, pre = pre1 ++ x :: pre2 -> match_at r (rev pre1 ++ b, (x :: pre2) ++ m_text m ++ m_after m) = None.
Proof.
  induction s as [|y s IH]; intros b m; cbn [search_from]; (destruct (match_at r (b, _)) as [m'|] eqn:E; [intros [= <-]; apply match_at_sound in E as (E1 & E2 & E3); exists []; rewrite app_nil_r; split; [exact E1|]; split; [exact E2|]; split; [exact E3|intros [|? ?] x pre2 Ex; discriminate Ex]|]); [discriminate|].
  intros H. apply IH in H as (pre & -> & H1 & H2 & H3). exists (y :: pre). split; [reflexivity|]. split; [rewrite H1; cbn [rev]; now rewrite <- app_assoc|]. split; [cbn [rev]; now rewrite <- app_assoc|].
  intros [|z pre1] x pre2 Ex; injection Ex as -> ->; [exact E|]. cbn [rev]. rewrite <- app_assoc. now apply H3.
Qed.
Lemma search_complete r pre : forall b w rest c', den r (rev pre ++ b) w rest [] c' -> search_from r b (pre ++ w ++ rest) <> None.
Proof.
  induction pre as [|y pre IH]; intros b w rest c' H; cbn [app].
  - cbn [rev app] in H. apply match_at_complete in H. destruct (w ++ rest) as [|z s]; cbn [search_from]; (destruct (match_at r (b, _)); [discriminate|congruence]).
  - cbn [search_from]. destruct (match_at r (b, _)); [discriminate|]. eapply IH. cbn [rev] in H. rewrite <- app_assoc in H. exact H.
Qed.
Lemma re_search_iff r s : (exists m, re_search r s = Some m) <-> exists pre w rest c, s = pre ++ w ++ rest /\ den r (rev pre) w rest [] c.
Proof.
  split.
  - intros (m & H). apply search_sound in H as (pre & H1 & _ & H2 & _). rewrite app_nil_r in H2. eauto 10.
  - intros (pre & w & rest & c & -> & H). unfold re_search. assert (search_from r [] (pre ++ w ++ rest) <> None) as Hn. { eapply search_complete. rewrite app_nil_r. exact H. }
    destruct (search_from r [] (pre ++ w ++ rest)) as [m|]; [now exists m|congruence].
Qed.

(** ** Notations *)
Lemma den_char x b w rest c c' : den (rchar x) b w rest c c' <-> w = [x] /\ c' = c.
Proof. cbn. split; [intros (y & -> & E & ->); apply Ascii.eqb_eq in E; now subst|intros (-> & ->); exists x; rewrite Ascii.eqb_refl; auto]. Qed.
Lemma den_text t : forall b w rest c c', den (rtext t) b w rest c c' <-> w = t /\ c' = c.
Proof.
  induction t as [|x t IH]; intros b w rest c c'; [reflexivity|]. cbn [rtext]. destruct t as [|y t]; [apply den_char|]. cbn [den]. split.
  - intros (w1 & w2 & c1 & -> & H1 & H2). apply den_char in H1 as (-> & ->). apply IH in H2 as (-> & ->). auto.
  - intros (-> & ->). exists [x], (y :: t), c. split; [reflexivity|]. split; [now apply den_char|now apply IH].
Qed.
Lemma den_cat_cons r l b w rest c c' : l <> [] -> (den (rcat (r :: l)) b w rest c c' <-> exists w1 w2 c1, w = w1 ++ w2 /\ den r b w1 (w2 ++ rest) c c1 /\ den (rcat l) (rev w1 ++ b) w2 rest c1 c').
Proof. destruct l as [|r2 l]; [congruence|]. reflexivity. Qed.
Lemma den_star_set f b w rest c c' : den (RStar (RSet f)) b w rest c c' <-> Forall (fun x => f x = true) w /\ c' = c.
Proof.
  cbn [den]. split.
  - induction 1 as [|b w1 w2 rest c c1 c2 _ (x & -> & Hx & ->) _ [IH1 IH2]]; [auto|]. split; [now constructor|exact IH2].
  - intros (H & ->). revert b. induction H as [|x w Hx _ IH]; intros b; [constructor|]. apply (iter_cons _ b [x] w rest c c c); [discriminate|now exists x|apply IH].
Qed.
Lemma den_plus_set f b w rest c c' : den (rplus (RSet f)) b w rest c c' <-> w <> [] /\ Forall (fun x => f x = true) w /\ c' = c.
Proof.
  unfold rplus. cbn [den]. split.
  - intros (w1 & w2 & c1 & -> & (x & -> & Hx & ->) & H). apply den_star_set in H as (H & ->). split; [discriminate|]. split; [now constructor|reflexivity].
  - intros (Hn & Hf & ->). destruct w as [|x w]; [congruence|]. inversion Hf; subst. exists [x], w, c. split; [reflexivity|]. split; [now exists x|]. now apply den_star_set.
Qed.
Lemma den_times_set f n : forall b w rest c c', den (rtimes n (RSet f)) b w rest c c' <-> length w = n /\ Forall (fun x => f x = true) w /\ c' = c.
Proof.
  induction n as [|n IH]; intros b w rest c c'; cbn [rtimes].
  - cbn [den]. split; [intros (-> & ->); auto|intros (H & _ & ->); destruct w; [auto|discriminate H]].
  - destruct n as [|n]; cbn [den].
    + split; [intros (x & -> & Hx & ->); auto|]. intros (H & Hf & ->). destruct w as [|x [|? ?]]; try discriminate H. inversion Hf; subst. now exists x.
    + split.
      * intros (w1 & w2 & c1 & -> & (x & -> & Hx & ->) & H). apply IH in H as (H1 & H2 & ->). cbn [length app]. rewrite H1. split; [reflexivity|]. split; [now constructor|reflexivity].
      * intros (H & Hf & ->). destruct w as [|x w]; [discriminate H|]. inversion Hf; subst. exists [x], w, c. split; [reflexivity|]. split; [now exists x|]. apply IH. cbn in H. auto.
Qed.
Lemma den_upto_set f n : forall b w rest c c', den (rupto n (RSet f)) b w rest c c' <-> (length w <= n)%nat /\ Forall (fun x => f x = true) w /\ c' = c.
Proof.
  induction n as [|n IH]; intros b w rest c c'; cbn [rupto].
  - cbn [den]. split; [intros (-> & ->); auto|intros (H & _ & ->); destruct w; [auto|cbn in H; lia]].
  - unfold ropt. cbn [den]. split.
    + intros [(w1 & w2 & c1 & -> & (x & -> & Hx & ->) & H)|(-> & ->)]; [apply IH in H as (H1 & H2 & ->); cbn [length app]; split; [lia|]; split; [now constructor|reflexivity]|].
      cbn. split; [lia|auto].
    + intros (H & Hf & ->). destruct w as [|x w]; [now right|]. left. inversion Hf; subst. exists [x], w, c. split; [reflexivity|]. split; [now exists x|]. apply IH. cbn in H. split; [lia|auto].
Qed.
Lemma den_range_set f m n b w rest c c' : (m <= n)%nat -> (den (rrange m n (RSet f)) b w rest c c' <-> (m <= length w <= n)%nat /\ Forall (fun x => f x = true) w /\ c' = c).
Proof.
  intros Hmn. unfold rrange. cbn [den]. split.
  - intros (w1 & w2 & c1 & -> & H1 & H2). apply den_times_set in H1 as (H1 & H1' & ->). apply den_upto_set in H2 as (H2 & H2' & ->). rewrite app_length. split; [lia|]. split; [now apply Forall_app|reflexivity].
  - intros (H & Hf & ->). rewrite <- (firstn_skipn m w) in Hf. apply Forall_app in Hf as [Hf1 Hf2]. exists (firstn m w), (skipn m w), c. split; [now rewrite firstn_skipn|].
    split; [apply den_times_set; rewrite firstn_length; split; [lia|auto]|]. apply den_upto_set. rewrite skipn_length. split; [lia|auto].
Qed.
Lemma den_alt_cons r l b w rest c c' : l <> [] -> (den (ralt (r :: l)) b w rest c c' <-> den r b w rest c c' \/ den (ralt l) b w rest c c').
Proof. destruct l as [|r2 l]; [congruence|]. reflexivity. Qed.
Lemma den_opt r b w rest c c' : den (ropt r) b w rest c c' <-> den r b w rest c c' \/ w = [] /\ c' = c.
Proof. reflexivity. Qed.
