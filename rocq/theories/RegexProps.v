(** * RegexProps: C101, the regular expressions that parse /proc, command lines and instructions. *)
From Coq Require Import ZArith List Ascii String Bool Lia.
From Verif Require Import PyBase RegexModel RegexSpec RegexProofs RegexProofs2.
Import ListNotations.

(** re.match: a match exists exactly when a beginning of the text is in the language of the expression ... *)
Theorem c101_match : forall r s, (exists m, re_match r s = Some m) <-> exists w rest c, s = w ++ rest /\ den r [] w rest [] c.
Proof. exact re_match_iff. Qed.
Print Assumptions c101_match.
(** ... and what it returns is one: text, rest and groups *)
Theorem c101_match_sound : forall r s m, re_match r s = Some m -> s = m_text m ++ m_after m /\ m_before m = [] /\ den r [] (m_text m) (m_after m) [] (m_groups m).
Proof. exact re_match_sound. Qed.
Print Assumptions c101_match_sound.
(** re.search: the first place where there is a match *)
Theorem c101_search : forall r s, (exists m, re_search r s = Some m) <-> exists pre w rest c, s = pre ++ w ++ rest /\ den r (rev pre) w rest [] c.
Proof. exact re_search_iff. Qed.
Print Assumptions c101_search.
Theorem c101_search_first : forall r s m, re_search r s = Some m ->
  s = m_before m ++ m_text m ++ m_after m /\ den r (rev (m_before m)) (m_text m) (m_after m) [] (m_groups m) /\
  forall pre w rest c, s = pre ++ w ++ rest -> den r (rev pre) w rest [] c -> (List.length (m_before m) <= List.length pre)%nat.
Proof. exact re_search_first. Qed.
Print Assumptions c101_search_first.
Example c101_ex : option_map m_text (re_search (rplus (RSet is_digit)) (T "pid 1234 of 7")) = Some (T "1234") /\ re_match (rplus (RSet is_digit)) (T "pid 1234") = None.
Proof. split; vm_compute; reflexivity. Qed.
(** \b, $ and the classes *)
Theorem c101_boundary : forall b s, (exists m, match_at RBound (b, s) = Some m) <->
  (exists x b', b = x :: b' /\ word_char x) /\ (forall y s', s = y :: s' -> ~ word_char y) \/
  (forall x b', b = x :: b' -> ~ word_char x) /\ (exists y s', s = y :: s' /\ word_char y).
Proof. exact boundary_iff. Qed.
Print Assumptions c101_boundary.
Theorem c101_end : forall b s, (exists m, match_at REnd (b, s) = Some m) <-> s = [] \/ s = [ascii_of_nat 10].
Proof. exact end_iff. Qed.
Print Assumptions c101_end.
Theorem c101_hex : forall c, is_hex_lower c = true <-> In c (T "0123456789abcdef").
Proof. exact hex_class. Qed.
Print Assumptions c101_hex.
Example c101_boundary_ex : re_search (rcat [RBound; rtext (T "ax"); RBound]) (T "eax ax") = Some (RMatch (T "eax ") (T "ax") [] []) /\ word_char "_"%char.
Proof. split; [vm_compute; reflexivity|]. vm_compute. tauto. Qed.
