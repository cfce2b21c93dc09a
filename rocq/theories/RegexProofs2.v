(** * RegexProofs2: the matcher and the classes of characters. *)
From Coq Require Import ZArith List Ascii String Bool Lia Arith.
From Verif Require Import PyBase RegexModel RegexFacts RegexSub RegexSpec RegexProofs.
Import ListNotations.

(** Every property of one character can be checked on all of them *)
Definition all_chars : list ascii := map ascii_of_nat (seq 0 256).
Lemma all_chars_in c : In c all_chars.
Proof. unfold all_chars. apply in_map_iff. exists (nat_of_ascii c). split; [apply ascii_nat_embedding|]. apply in_seq. pose proof (nat_ascii_bounded c). lia. Qed.
Definition char_in (c : ascii) (l : text) : bool := existsb (Ascii.eqb c) l.
Lemma char_in_iff c l : char_in c l = true <-> In c l.
Proof.
  unfold char_in. rewrite existsb_exists. split.
  - intros (x & Hx & He). apply Ascii.eqb_eq in He. now subst.
  - intros H. exists c. split; [exact H|apply Ascii.eqb_refl].
Qed.
Lemma class_by_check (f : ascii -> bool) (l : text) : forallb (fun c => Bool.eqb (f c) (char_in c l)) all_chars = true -> forall c, f c = true <-> In c l.
Proof.
  intros H c. rewrite forallb_forall in H. specialize (H c (all_chars_in c)). apply eqb_prop in H. rewrite H. apply char_in_iff.
Qed.
Lemma hex_class c : is_hex_lower c = true <-> In c (T "0123456789abcdef").
Proof. apply class_by_check. vm_compute. reflexivity. Qed.
Lemma word_class c : is_word c = true <-> word_char c.
Proof. apply (class_by_check is_word). vm_compute. reflexivity. Qed.
Lemma starts_word_true l : starts_word l = true <-> exists x r, l = x :: r /\ word_char x.
Proof.
  destruct l as [|x r]; cbn [starts_word].
  - split; [discriminate|]. intros (x & r & H & _). discriminate H.
  - rewrite word_class. split; [eauto|]. intros (y & r' & [= -> ->] & H). exact H.
Qed.
Lemma starts_word_false l : starts_word l = false <-> forall x r, l = x :: r -> ~ word_char x.
Proof.
  destruct (starts_word l) eqn:E.
  - split; [discriminate|]. intros H. apply starts_word_true in E as (x & r & -> & Hx). now destruct (H x r eq_refl).
  - split; [|reflexivity]. intros _ x r -> Hx. assert (starts_word (x :: r) = true) by (apply starts_word_true; eauto). congruence.
Qed.
Lemma boundary_iff b s : (exists m, match_at RBound (b, s) = Some m) <->
  (exists x b', b = x :: b' /\ word_char x) /\ (forall y s', s = y :: s' -> ~ word_char y) \/
  (forall x b', b = x :: b' -> ~ word_char x) /\ (exists y s', s = y :: s' /\ word_char y).
Proof.
  rewrite <- !starts_word_true, <- !starts_word_false. unfold match_at. cbn [mat fst snd].
  destruct (starts_word b), (starts_word s); cbn [xorb]; split; intros H; try (destruct H as [m H]; discriminate H); try (destruct H as [[H1 H2]|[H1 H2]]; discriminate);
    (left; split; reflexivity) || (right; split; reflexivity) || eauto.
Qed.
Lemma end_iff b s : (exists m, match_at REnd (b, s) = Some m) <-> s = [] \/ s = [ascii_of_nat 10].
Proof.
  unfold match_at. cbn [mat snd]. destruct s as [|x [|y s]].
  - split; [auto|]. intros _. eauto.
  - destruct (Ascii.eqb x newline) eqn:E.
    + apply Ascii.eqb_eq in E. subst x. split; [intros _; right; reflexivity|]. intros _. eauto.
    + split; [intros [m H]; discriminate H|]. intros [H|H]; [discriminate H|]. injection H as ->. discriminate E.
  - split; [intros [m H]; discriminate H|]. intros [H|H]; discriminate H.
Qed.
Lemma re_match_sound r s m : re_match r s = Some m -> s = m_text m ++ m_after m /\ m_before m = [] /\ den r [] (m_text m) (m_after m) [] (m_groups m).
Proof. intros H. now apply match_at_sound in H. Qed.
Lemma re_search_first r s m : re_search r s = Some m ->
  s = m_before m ++ m_text m ++ m_after m /\ den r (rev (m_before m)) (m_text m) (m_after m) [] (m_groups m) /\
  forall pre w rest c, s = pre ++ w ++ rest -> den r (rev pre) w rest [] c -> (List.length (m_before m) <= List.length pre)%nat.
Proof.
  intros H. apply search_sound in H as (pre & Hs & Hb & Hd & Hfirst). cbn [rev app] in Hb. rewrite Hb. rewrite app_nil_r in Hd. split; [exact Hs|]. split; [exact Hd|].
  intros pre' w rest c Hs' Hd'. rewrite Hs' in Hs. apply app_eq_app in Hs as (l & [[E1 E2]|[E1 E2]]).
  - rewrite E1, app_length. lia.
  - destruct l as [|x l]; [rewrite app_nil_r in E1; now subst|]. exfalso. specialize (Hfirst pre' x l E1). rewrite app_nil_r, <- E2 in Hfirst.
    now apply match_at_complete in Hd'.
Qed.
