(** * DocProofs2: test_doc.py. *)
From Coq Require Import ZArith List Ascii String Bool Lia.
From Verif Require Import PyBase PyFacts ToolsModel ToolsProofs DocModel DocSpec DocProofs.
Import ListNotations.
Open Scope Z_scope.

Lemma lines_eqb_eq a b : lines_eqb a b = true <-> a = b.
Proof.
  revert b. induction a as [|x a IH]; intros [|y b]; cbn [lines_eqb]; try (split; [discriminate|discriminate]); [easy|].
  rewrite andb_true_iff, IH, text_eqb_eq. split; [intros [-> ->]; reflexivity|intros H; injection H as <- <-; now split].
Qed.
Section Run.
  Context (exec : text -> text -> nat -> list text -> list text).
  Lemma run_nonneg modname name l : forall n, 0 <= fst (run_examples exec modname name n l).
  Proof.
    induction l as [|e l IH]; intros n; cbn [run_examples]; [cbn; lia|]. specialize (IH (S n)). destruct (run_examples exec modname name (S n) l) as [f t].
    cbn [fst] in *. destruct (lines_eqb _ _); lia.
  Qed.
  Lemma run_right modname name l : forall n, fst (run_examples exec modname name n l) = 0 <->
    forall i e, nth_error l i = Some e -> exec modname name (n + i)%nat (source e) = want e.
  Proof.
    induction l as [|e l IH]; intros n; cbn [run_examples]; [cbn; split; [intros _ [|i] e H; discriminate H|reflexivity]|].
    specialize (IH (S n)). pose proof (run_nonneg modname name l (S n)) as P. destruct (run_examples exec modname name (S n) l) as [f t]. cbn [fst] in *.
    destruct (lines_eqb _ _) eqn:Q.
    - apply lines_eqb_eq in Q. rewrite Z.add_0_l, IH. split.
      + intros A [|i] e' N; cbn in N; [injection N as <-; now rewrite Nat.add_0_r|]. rewrite <- plus_n_Sm. now apply (A i).
      + intros A i e' N. specialize (A (S i) e' N). now rewrite <- plus_n_Sm in A.
    - split; [lia|]. intros A. specialize (A 0%nat e eq_refl). rewrite Nat.add_0_r in A. apply lines_eqb_eq in A. congruence.
  Qed.
  Definition member_right (modname : text) (x : member) : Prop :=
    forall doc l i src out, m_doc x = Some doc -> reads doc l -> nth_error (shown_of l) i = Some (src, out) -> exec modname (m_name x) i src = out.
  Lemma member_iff modname x doc l : m_doc x = Some doc -> reads doc l ->
    fst (run_examples exec modname (m_name x) 0 (map as_example (shown_of l))) = 0 <-> member_right modname x.
  Proof.
    intros D R. rewrite run_right. split.
    - intros A doc' l' i src out D' R' N. rewrite D in D'. injection D' as <-. pose proof (read_doc _ _ R) as E. pose proof (read_doc _ _ R') as E'.
      rewrite E in E'. assert (E2 : map as_example (shown_of l) = map as_example (shown_of l')) by congruence.
      specialize (A i (as_example (src, out))). rewrite E2 in A. now apply A, map_nth_error.
    - intros A i e N. rewrite nth_error_map in N. destruct (nth_error (shown_of l) i) as [[src out]|] eqn:M; [|discriminate]. injection N as <-.
      now apply (A doc l).
  Qed.
  Lemma test_right modname l : (forall x doc, In x l -> m_doc x = Some doc -> exists p, reads doc p) ->
    exists f t, test_members exec modname l = Ok (f, t) /\ 0 <= f /\ (f = 0 <-> forall x, In x l -> member_right modname x).
  Proof.
    induction l as [|x l IH]; intros R; [exists 0, 0; repeat split; try lia; intros _ x []|]. destruct IH as (f & t & E & P & I); [intros y doc J; apply R; now right|].
    cbn [test_members]. destruct (m_doc x) as [doc|] eqn:D.
    - destruct (R x doc (or_introl eq_refl) D) as [p H]. rewrite (read_doc _ _ H). cbn [bind].
      pose proof (run_nonneg modname (m_name x) (map as_example (shown_of p)) 0) as P0. pose proof (member_iff modname x doc p D H) as M.
      destruct (run_examples exec modname (m_name x) 0 _) as [f0 t0]. rewrite E. cbn [bind fst snd] in *. exists (f0 + f), (t0 + t). split; [reflexivity|]. split; [lia|]. split.
      + intros Z. assert (f0 = 0) as Z0 by lia. assert (f = 0) as Z1 by lia. intros y [<-|J]; [now apply M|now apply I].
      + intros A. assert (f0 = 0) by (apply M, A; now left). assert (f = 0) by (apply I; intros y J; apply A; now right). lia.
    - cbn [bind run_examples]. rewrite E. cbn [bind fst snd]. exists (0 + f), (0 + t). split; [reflexivity|]. split; [lia|]. split.
      + intros Z y [<-|J]; [intros doc q i src out D'; congruence|]. apply I; [lia|exact J].
      + intros A. apply I. intros y J. apply A. now right.
  Qed.
  Lemma testmod_right m : readable m -> exists f t, testmod exec m = Ok (f, t) /\ (f = 0 <-> right_examples exec m).
  Proof.
    intros R. destruct (test_right (mod_name m) (filter (from_module m) (mod_members m))) as (f & t & E & _ & I).
    - intros x doc J D. apply filter_In in J as [J H]. apply text_eqb_eq in H. now apply (R x).
    - exists f, t. split; [exact E|]. rewrite I. split.
      + intros A x doc l i src out J H. assert (F : In x (filter (from_module m) (mod_members m))) by (apply filter_In; split; [exact J|now apply text_eqb_eq]). now apply (A x F).
      + intros A x J. apply filter_In in J as [J H]. apply text_eqb_eq in H. intros doc l i src out D L N. now apply (A x doc l i).
  Qed.

  Context (import : list text -> text -> res pymod) (sys_path : list text).
  Lemma walk_at m path m' : mod_at m path m' -> walk m path = Ok m'.
  Proof.
    induction 1 as [m|name members before c m after path m' N A IH]; [reflexivity|]. cbn [walk mod_sub].
    assert (E : dget text_eqb c (before ++ (c, m) :: after) = Some m).
    { clear IH. induction before as [|[k v] before IHb]; cbn [List.app dget]; [now rewrite text_eqb_refl|].
      destruct (text_eqb c k) eqn:Q; [apply text_eqb_eq in Q as ->; destruct N; now left|]. apply IHb. intros I. apply N. now right. }
    now rewrite E.
  Qed.
  Lemma import_module name m : imports import sys_path name m -> importModule import sys_path name = Ok m.
  Proof.
    intros (top & c & path & I & J & D & A). unfold importModule. rewrite I. cbn [bind]. rewrite J. change (T ".") with ["."%char]. rewrite split_join; [|discriminate|exact D].
    cbn [tl]. now apply walk_at.
  Qed.
  Lemma module_right name m : imports import sys_path name m -> readable m -> right_examples exec m ->
    testModule exec import sys_path name = ([first_line name; last_line], Ok tt).
  Proof.
    intros I R H. unfold testModule. rewrite (import_module _ _ I). cbn [bind]. destruct (testmod_right m R) as (f & t & -> & F). apply F in H as ->. reflexivity.
  Qed.
  Lemma module_wrong name m : imports import sys_path name m -> readable m -> ~ right_examples exec m ->
    testModule exec import sys_path name = ([first_line name], Err (ESystemExit 1)).
  Proof.
    intros I R H. unfold testModule. rewrite (import_module _ _ I). cbn [bind]. destruct (testmod_right m R) as (f & t & -> & F).
    destruct (Z.eqb_spec f 0) as [E|E]; [destruct H; now apply F|]. reflexivity.
  Qed.
  Lemma modules_right names rest : (forall n, In n names -> exists m, imports import sys_path n m /\ readable m /\ right_examples exec m) ->
    testModules exec import sys_path (names ++ rest) = (report names ++ fst (testModules exec import sys_path rest), snd (testModules exec import sys_path rest)).
  Proof.
    induction names as [|n names IH]; intros A; [apply surjective_pairing|]. destruct (A n (or_introl eq_refl)) as (m & I & R & H).
    cbn [List.app testModules report flat_map]. rewrite (module_right n m I R H). rewrite IH; [reflexivity|]. intros k K. apply A. now right.
  Qed.
  Lemma modules_wrong before n after m : (forall n, In n before -> exists m, imports import sys_path n m /\ readable m /\ right_examples exec m) ->
    imports import sys_path n m -> readable m -> ~ right_examples exec m ->
    testModules exec import sys_path (before ++ n :: after) = (report before ++ [first_line n], Err (ESystemExit 1)).
  Proof. intros A I R H. rewrite modules_right by exact A. cbn [testModules]. rewrite (module_wrong n m I R H). reflexivity. Qed.
End Run.

(** ** The directory of test_doc.py *)
Lemma upto_no_slash b : ~ In "/"%char b -> upto_last_slash b = [].
Proof.
  induction b as [|c b IH]; [reflexivity|]. intros N. cbn [upto_last_slash]. rewrite IH by (intros I; apply N; now right).
  destruct (Ascii.eqb_spec c "/"%char) as [->|]; [destruct N; now left|reflexivity].
Qed.
Lemma upto_app a b : ~ In "/"%char b -> upto_last_slash (a ++ "/"%char :: b) = a ++ ["/"%char].
Proof.
  intros N. induction a as [|c a IH]; [cbn; now rewrite upto_no_slash|]. cbn [List.app upto_last_slash]. rewrite IH. now destruct a.
Qed.
Lemma dirname_file a c b : c <> "/"%char -> ~ In "/"%char b -> dirname ((a ++ [c]) ++ "/"%char :: b) = a ++ [c].
Proof.
  intros C N. unfold dirname. rewrite upto_app by exact N.
  assert (F : forallb (Ascii.eqb "/") ((a ++ [c]) ++ ["/"%char]) = false).
  { rewrite !forallb_app. cbn [forallb]. assert (Q : Ascii.eqb "/" c = false) by (apply Ascii.eqb_neq; congruence). rewrite Q. now rewrite !andb_false_r. }
  rewrite F, rev_app_distr. cbn [rev List.app rstrip_slash_rev Ascii.eqb Bool.eqb]. rewrite rev_app_distr. cbn [rev List.app rstrip_slash_rev].
  rewrite (proj2 (Ascii.eqb_neq c "/"%char) C). cbn [rev]. now rewrite rev_involutive.
Qed.
Lemma main_path exec import sys_path a c : c <> "/"%char ->
  main exec import sys_path (a ++ [c] ++ T "/test_doc.py") = testModules exec import (sys_path ++ [a ++ [c]]) tested_modules.
Proof.
  intros C. unfold main. rewrite app_assoc. change (T "/test_doc.py") with ("/"%char :: T "test_doc.py").
  rewrite (dirname_file a c (T "test_doc.py") C); [reflexivity|]. cbn. intuition discriminate.
Qed.
Lemma main_right exec import sys_path a c : c <> "/"%char ->
  (forall n, In n tested_modules -> exists m, imports import (sys_path ++ [a ++ [c]]) n m /\ readable m /\ right_examples exec m) ->
  main exec import sys_path (a ++ [c] ++ T "/test_doc.py") = (report tested_modules, Ok tt).
Proof.
  intros C A. rewrite main_path by exact C. rewrite <- (app_nil_r tested_modules) at 1. rewrite modules_right by exact A. cbn [testModules fst snd]. now rewrite app_nil_r.
Qed.
Lemma main_wrong exec import sys_path a c before n after m : c <> "/"%char -> tested_modules = before ++ n :: after ->
  (forall n, In n before -> exists m, imports import (sys_path ++ [a ++ [c]]) n m /\ readable m /\ right_examples exec m) ->
  imports import (sys_path ++ [a ++ [c]]) n m -> readable m -> ~ right_examples exec m ->
  main exec import sys_path (a ++ [c] ++ T "/test_doc.py") = (report before ++ [first_line n], Err (ESystemExit 1)).
Proof. intros C E A I R H. rewrite main_path by exact C. rewrite E. now apply (modules_wrong _ _ _ _ _ _ m). Qed.
