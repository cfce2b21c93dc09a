From Coq Require Import ZArith List Ascii String Bool Lia.
From Verif Require Import PyBase PyFacts PyInt RegexModel RegexFacts.
Import ListNotations.
Open Scope Z_scope.

Lemma strip_around ws1 s ws2 : Forall (fun c => is_space c = true) ws1 -> Forall (fun c => is_space c = true) ws2 ->
  s <> [] -> Forall (fun c => is_space c = false) s -> strip (ws1 ++ s ++ ws2) = s.
Proof.
  intros H1 H2 Hne Hs. unfold strip. rewrite lstrip_spaces by exact H1. destruct (exists_last Hne) as (r & c & ->). apply Forall_app in Hs as [Hr Hc]. inversion Hc; subst.
  assert (lstrip ((r ++ [c]) ++ ws2) = (r ++ [c]) ++ ws2) as ->.
  { destruct r as [|d r]; cbn [app]; [now apply lstrip_none|]. inversion Hr; subst. now apply lstrip_none. }
  rewrite <- app_assoc. now apply rstrip_spaces.
Qed.
Lemma int_digits_read b : forall s prev acc, (forall c, In c s -> c <> "_"%char) -> (prev = true \/ s <> []) -> int_digits b s prev acc = read_digits b s acc.
Proof.
  induction s as [|c s IH]; intros prev acc Hu Hp; cbn [int_digits read_digits]; [destruct Hp as [->|]; [reflexivity|congruence]|].
  destruct (Ascii.eqb c "_"%char) eqn:E; [apply Ascii.eqb_eq in E; exfalso; exact (Hu c (or_introl eq_refl) E)|].
  destruct (digit_val c); [|reflexivity]. destruct (_ <? b); [|reflexivity]. apply IH; [intros x Hx; apply Hu; now right|now left].
Qed.
(** Decimal digits *)
Lemma digits10_is n : 0 <= n -> Forall (fun c => is_digit c = true) (digits 10 n).
Proof.
  intros H. apply digits_Forall; [lia| |exact H]. intros d Hd. assert (d = 0 \/ d = 1 \/ d = 2 \/ d = 3 \/ d = 4 \/ d = 5 \/ d = 6 \/ d = 7 \/ d = 8 \/ d = 9) by lia.
  intuition (subst; reflexivity).
Qed.
Definition number_char (c : ascii) : bool := (is_digit c || Ascii.eqb c "-"%char).
Lemma number_char_plain c : number_char c = true -> is_space c = false /\ c <> "_"%char /\ c <> ")"%char /\ c <> "("%char /\ c <> z2b 13 /\ c <> z2b 0 /\ c <> z2b 10 /\ c <> z2b 9 /\ c <> "+"%char.
Proof.
  intros H. assert (implb (number_char c) (negb (is_space c) && forallb (fun d => negb (Ascii.eqb c d)) ["_"; ")"; "("; z2b 13; z2b 0; z2b 10; z2b 9; "+"]%char) = true) as E
    by (clear H; revert c; apply forall_ascii; vm_compute; reflexivity).
  rewrite H in E. cbn [implb] in E. rewrite andb_true_iff, negb_true_iff in E. destruct E as [E1 E]. cbn [forallb] in E. rewrite !andb_true_iff in E.
  assert (forall d, negb (Ascii.eqb c d) = true -> c <> d) as Hd by (intros d Hd ->; now rewrite Ascii.eqb_refl in Hd).
  destruct E as (A1 & A2 & A3 & A4 & A5 & A6 & A7 & A8 & _). repeat split; auto.
Qed.
Lemma str_int_chars n : Forall (fun c => number_char c = true) (str_int n).
Proof.
  unfold str_int, fmt_int. destruct (n <? 0) eqn:E; zb.
  - constructor; [reflexivity|]. eapply Forall_impl; [|apply digits10_is; lia]. cbn. intros c Hc. unfold number_char. now rewrite Hc.
  - eapply Forall_impl; [|apply digits10_is; lia]. cbn. intros c Hc. unfold number_char. now rewrite Hc.
Qed.
Lemma str_int_nonempty n : str_int n <> [].
Proof. unfold str_int, fmt_int. destruct (n <? 0); [discriminate|apply digits_nonempty]. Qed.
Lemma int_unsigned_digits n : 0 <= n -> int_unsigned 10 (digits 10 n) = Some n.
Proof.
  intros H. assert (int_unsigned 10 (digits 10 n) = int_digits 10 (digits 10 n) false 0) as -> by (unfold int_unsigned, base_letter; destruct (digits 10 n) as [|? [|? ?]]; try reflexivity; cbn [Z.eqb Pos.eqb orb andb]; now rewrite andb_false_r).
  rewrite int_digits_read.
  - apply digits_read; lia.
  - intros c Hc. pose proof (digits10_is n H) as Hf. rewrite Forall_forall in Hf. assert (number_char c = true) as Hn by (unfold number_char; now rewrite Hf). now apply number_char_plain in Hn.
  - right. apply digits_nonempty.
Qed.
Lemma py_int_str n ws1 ws2 : Forall (fun c => is_space c = true) ws1 -> Forall (fun c => is_space c = true) ws2 -> py_int 10 (ws1 ++ str_int n ++ ws2) = Ok n.
Proof.
  intros H1 H2. unfold py_int. rewrite strip_around; [|exact H1|exact H2|apply str_int_nonempty|].
  2:{ eapply Forall_impl; [|apply str_int_chars]. cbn. intros c Hc. now apply number_char_plain in Hc. }
  unfold str_int, fmt_int. destruct (n <? 0) eqn:E; zb.
  - cbn [Ascii.eqb Bool.eqb]. rewrite int_unsigned_digits by lia. now rewrite Z.opp_involutive.
  - pose proof (int_unsigned_digits n ltac:(lia)) as Hu. pose proof (digits10_is n ltac:(lia)) as Hd. destruct (digits 10 n) as [|c r]; [discriminate Hu|].
    inversion Hd as [|? ? Hc _]; subst. assert (number_char c = true) as Hn by (unfold number_char; now rewrite Hc).
    destruct (Ascii.eqb c "-"%char) eqn:E1; [apply Ascii.eqb_eq in E1; subst c; discriminate Hc|]. destruct (Ascii.eqb c "+"%char) eqn:E2; [apply Ascii.eqb_eq in E2; subst c; discriminate Hc|].
    now rewrite Hu.
Qed.
Lemma py_int_plain n : py_int 10 (str_int n) = Ok n.
Proof. pose proof (py_int_str n [] [] (Forall_nil _) (Forall_nil _)) as H. cbn [app] in H. now rewrite app_nil_r in H. Qed.

(** Words separated by single spaces *)
Lemma split_ws_aux_word w : Forall (fun c => is_space c = false) w -> forall rest cur, split_ws_aux (w ++ rest) cur = split_ws_aux rest (rev w ++ cur).
Proof. induction 1 as [|c w Hc _ IH]; intros rest cur; [reflexivity|]. cbn [app split_ws_aux rev]. rewrite Hc, IH, <- app_assoc. reflexivity. Qed.
Definition word (w : text) : Prop := w <> [] /\ Forall (fun c => is_space c = false) w.
Lemma split_words sep : is_space sep = true -> forall ws tail, Forall word ws -> Forall (fun c => is_space c = true) tail ->
  split_ws (List.concat (map (fun w => sep :: w) ws) ++ tail) = ws.
Proof.
  intros Hsep. assert (forall tail, Forall (fun c => is_space c = true) tail -> split_ws_aux tail [] = []) as Ht by (induction 1 as [|c tail Hc _ IH]; [reflexivity|]; cbn; now rewrite Hc).
  unfold split_ws. intros ws tail Hw Htail. induction Hw as [|w ws [Hne Hs] Hws IH]; [now apply Ht|].
  cbn [map List.concat]. rewrite <- app_assoc. cbn [app split_ws_aux]. rewrite Hsep. rewrite split_ws_aux_word by exact Hs. rewrite app_nil_r.
  assert (forall X, split_ws_aux (List.concat (map (fun w => sep :: w) ws) ++ tail) (rev w) = w :: X <-> split_ws_aux (List.concat (map (fun w => sep :: w) ws) ++ tail) [] = X) as Hk.
  { assert (forall c r X, is_space c = true -> split_ws_aux (c :: r) (rev w) = w :: X <-> split_ws_aux (c :: r) [] = X) as Hs2.
    { intros c r X Hc. cbn [split_ws_aux]. rewrite Hc. destruct (rev w) eqn:E; [exfalso; apply Hne; rewrite <- (rev_involutive w), E; reflexivity|].
      rewrite <- E, rev_involutive. split; [intros H; now injection H|now intros ->]. }
    intros X. destruct ws as [|w2 ws]; cbn [map List.concat app].
    - inversion Htail; subst; cbn [app].
      + cbn [split_ws_aux]. destruct (rev w) eqn:E; [exfalso; apply Hne; rewrite <- (rev_involutive w), E; reflexivity|]. rewrite <- E, rev_involutive. split; [intros H; now injection H|now intros <-].
      + now apply Hs2.
    - now apply Hs2. }
  now apply Hk.
Qed.
