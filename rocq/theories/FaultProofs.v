(** * FaultProofs: mappings, the forms of the instructions, the registers of the operands. *)
From Coq Require Import ZArith List Ascii String Bool Lia.
From Verif Require Import PyBase PyFacts Platform IntModel RegexModel RegexSpec RegexProofs SigModel MapModel TraceModel FaultModel FaultSpec.
Import ListNotations.
Open Scope Z_scope.

(** ** Mappings *)
Lemma overlap_touches a size m : overlap a size m = true <-> touches a size m.
Proof.
  unfold overlap, touches. rewrite Z.ltb_lt. split; [intros H; exists (Z.max a (mp_start m)); lia|intros (x & H); lia].
Qed.
Definition found (size a : Z) (m : mapping) : bool :=
  ((mp_start m <=? a) && (a <? mp_end m)) || ((mp_start m <=? a + size - 1) && (a + size - 1 <? mp_end m)).
Lemma find_mapping_report p maps size a : find_mapping p maps size a = report p a size (filter (found size a) maps).
Proof.
  unfold find_mapping, report, range_name. change (fun m => _ || _) with (found size a). destruct (1 <? size); [reflexivity|]. rewrite app_nil_r. reflexivity.
Qed.
Lemma found_spec size a m : found size a m = true <-> (mp_start m <= a < mp_end m) \/ (mp_start m <= a + size - 1 < mp_end m).
Proof. unfold found. rewrite orb_true_iff, !andb_true_iff, !Z.leb_le, !Z.ltb_lt. tauto. Qed.
Lemma found_touches size a m : 1 <= size -> found size a m = true -> touches a size m.
Proof. intros Hs H. apply found_spec in H as [H|H]; [exists a|exists (a + size - 1)]; lia. Qed.
Lemma found_overlap size a m : 1 <= size <= mp_end m - mp_start m -> found size a m = overlap a size m.
Proof.
  intros Hs. destruct (overlap a size m) eqn:E.
  - apply overlap_touches in E as (x & Hx). apply found_spec. lia.
  - destruct (found size a m) eqn:F; [|reflexivity]. apply found_touches in F; [|lia]. apply overlap_touches in F. congruence.
Qed.
Lemma find_mapping_exact p maps size a : 1 <= size -> Forall (fun m => size <= mp_end m - mp_start m) maps ->
  find_mapping p maps size a = report p a size (filter (overlap a size) maps).
Proof.
  intros Hs Hm. rewrite find_mapping_report. f_equal. induction Hm as [|m maps Hm _ IH]; [reflexivity|]. cbn [filter]. rewrite found_overlap by lia. now rewrite IH.
Qed.
Lemma find_mapping_small p maps a : Forall (fun m => mp_start m < mp_end m /\ mp_end m <> a) maps -> find_mapping p maps 0 a = report p a 1 (filter (overlap a 1) maps).
Proof.
  intros Hm. rewrite find_mapping_report. unfold report, range_name. change (1 <? 0) with false. change (1 <? 1) with false. cbv iota.
  assert (filter (found 0 a) maps = filter (overlap a 1) maps) as ->; [|reflexivity]. induction Hm as [|m maps Hm _ IH]; [reflexivity|]. cbn [filter]. rewrite IH.
  assert (found 0 a m = overlap a 1 m) as ->; [|reflexivity]. destruct (overlap a 1 m) eqn:E.
  - apply overlap_touches in E as (x & Hx). apply found_spec. lia.
  - destruct (found 0 a m) eqn:F; [|reflexivity]. apply found_spec in F. assert (touches a 1 m) as F'. { exists a. lia. } apply overlap_touches in F'. congruence.
Qed.
Lemma find_stack_spec maps m : findStack maps = Some m <-> first_stack maps m.
Proof.
  unfold findStack, first_stack, is_stack. split.
  - induction maps as [|x maps IH]; [discriminate|]. cbn [find]. destruct (mp_pathname x) as [n|] eqn:E; [destruct (text_eqb n (T "[stack]")) eqn:En|].
    + intros [= <-]. apply text_eqb_eq in En as ->. now exists [], maps.
    + intros H. apply IH in H as (b & a & -> & H1 & H2). exists (x :: b), a. split; [reflexivity|]. split; [exact H1|]. constructor; [|exact H2]. intros F. rewrite E in F. injection F as ->. now rewrite text_eqb_refl in En.
    + intros H. apply IH in H as (b & a & -> & H1 & H2). exists (x :: b), a. split; [reflexivity|]. split; [exact H1|]. constructor; [|exact H2]. congruence.
  - intros (b & a & -> & H1 & H2). induction H2 as [|x b Hx _ IH]; cbn [app find].
    + now rewrite H1, text_eqb_refl.
    + destruct (mp_pathname x) as [n|] eqn:E; [|exact IH]. destruct (text_eqb n (T "[stack]")) eqn:En; [|exact IH]. apply text_eqb_eq in En as ->. congruence.
Qed.

(** ** The forms *)
Lemma Forall_not_in (x : ascii) t : Forall (fun c => negb (Ascii.eqb c x) = true) t <-> ~ In x t.
Proof.
  rewrite Forall_forall. split.
  - intros H Hx. apply H in Hx. now rewrite Ascii.eqb_refl in Hx.
  - intros H c Hc. destruct (Ascii.eqb_spec c x) as [->|]; [contradiction|reflexivity].
Qed.
Lemma den_names b w rest c c' : den (ralt [rtext (T "BYTE"); rtext (T "WORD"); rtext (T "DWORD"); rtext (T "DQWORD")]) b w rest c c' <-> In w size_names /\ c' = c.
Proof.
  rewrite !den_alt_cons by discriminate. cbn [ralt]. rewrite !den_text. unfold size_names. cbn [In].
  split; [intros [[-> ->]|[[-> ->]|[[-> ->]|[-> ->]]]]; auto 10|]. intros [[<-|[<-|[<-|[<-|[]]]]] ->]; auto 10.
Qed.
Definition deref_caps (size expr : text) (c c' : caps) : Prop :=
  (size = [] /\ c' = dset Nat.eqb DEREF expr c) \/
  (exists n, In n size_names /\ size = n ++ T " " /\ c' = dset Nat.eqb DEREF expr (dset Nat.eqb DEREF_SIZE size (dset Nat.eqb 2%nat n c))).
Lemma den_deref b w rest c c' : den DEREF_REGEX b w rest c c' <->
  exists size expr, deref_caps size expr c c' /\ expr <> [] /\ ~ In "]"%char expr /\ w = size ++ T "[" ++ expr ++ T "]".
Proof.
  unfold DEREF_REGEX. rewrite den_cat_cons by discriminate. split.
  - intros (w1 & w2 & c1 & -> & H1 & H2). apply den_cat_cons in H2 as (w3 & w4 & c2 & -> & H2 & H3); [|discriminate]. apply den_char in H2 as (-> & ->).
    apply den_cat_cons in H3 as (w5 & w6 & c3 & -> & H3 & H4); [|discriminate]. apply den_char in H4 as (-> & ->). cbn [den] in H3. destruct H3 as (c4 & H3 & ->).
    apply den_plus_set in H3 as (Hn & Hf & ->). apply Forall_not_in in Hf. exists w1, w5. split; [|split; [exact Hn|]; split; [exact Hf|reflexivity]].
    apply den_opt in H1 as [H1|[-> ->]]; [|left; auto]. right. cbn [den] in H1. destruct H1 as (c5 & (w7 & w8 & c6 & -> & (c7 & H1 & ->) & (x & -> & Hx & ->)) & ->).
    apply den_names in H1 as (Hin & ->). apply Ascii.eqb_eq in Hx as <-. exists w7. auto.
  - intros (size & expr & Hc & Hn & Hf & ->).
    assert (exists c1, den (ropt (RGroup DEREF_SIZE (RCat (RGroup 2 (ralt [rtext (T "BYTE"); rtext (T "WORD"); rtext (T "DWORD"); rtext (T "DQWORD")])) (rchar " "%char)))) b size ((T "[" ++ expr ++ T "]") ++ rest) c c1 /\ c' = dset Nat.eqb DEREF expr c1) as (c1 & H1 & Ec).
    { destruct Hc as [[-> ->]|(n & Hin & -> & ->)]; [exists c; split; [apply den_opt; now right|reflexivity]|]. eexists. split; [|reflexivity]. apply den_opt. left. cbn [den].
      exists (dset Nat.eqb 2%nat n c). split; [|reflexivity]. exists n, (T " "), (dset Nat.eqb 2%nat n c). split; [reflexivity|]. split; [exists c; split; [now apply den_names|reflexivity]|]. exists " "%char. auto. }
    exists size, (T "[" ++ expr ++ T "]"), c1. split; [reflexivity|]. split; [exact H1|]. apply den_cat_cons; [discriminate|]. exists (T "["), (expr ++ T "]"), c1. split; [reflexivity|]. split; [now apply den_char|].
    apply den_cat_cons; [discriminate|]. exists expr, (T "]"), c'. split; [reflexivity|]. split; [|now apply den_char]. cbn [den]. exists c1. split; [|exact Ec]. apply den_plus_set. split; [exact Hn|]. split; [now apply Forall_not_in|reflexivity].
Qed.
Lemma deref_caps_text size expr c c' : deref_caps size expr c c' -> size = [] \/ exists n, In n size_names /\ size = n ++ T " ".
Proof. intros [[-> _]|(n & H1 & H2 & _)]; [now left|right; eauto]. Qed.
Lemma deref_text_caps d c : deref_text d -> exists size expr c', deref_caps size expr c c' /\ expr <> [] /\ ~ In "]"%char expr /\ d = size ++ T "[" ++ expr ++ T "]".
Proof.
  intros (size & expr & Hs & Hn & Hf & ->). destruct Hs as [->|(n & Hin & ->)].
  - exists [], expr, (dset Nat.eqb DEREF expr c). split; [left; auto|auto].
  - exists (n ++ T " "), expr, (dset Nat.eqb DEREF expr (dset Nat.eqb DEREF_SIZE (n ++ T " ") (dset Nat.eqb 2%nat n c))). split; [right; eauto|auto].
Qed.
(** What the group of the size contains: nothing, or a name and a space *)
Definition sized (c : caps) : Prop := match group DEREF_SIZE c with Some s => exists n, In n size_names /\ s = n ++ T " " | None => True end.
Lemma deref_caps_sized size expr c' : deref_caps size expr [] c' -> sized c'.
Proof. intros [[-> ->]|(n & Hin & -> & ->)]; unfold sized; cbn; [exact I|]. now exists n. Qed.
Lemma sized_none m : sized (m_groups m) -> findDerefSize m = None.
Proof.
  unfold sized, findDerefSize. destruct (group DEREF_SIZE (m_groups m)) as [s|]; [|reflexivity]. intros (n & Hin & ->). unfold size_names in Hin. cbn [In] in Hin. destruct Hin as [<-|[<-|[<-|[<-|[]]]]]; reflexivity.
Qed.

Lemma den_write b w rest c' : den WRITE_REGEX b w rest [] c' <->
  b = [] /\ exists op suffix size expr, In op [T "MOV"; T "TEST"] /\ upper_word suffix /\ deref_caps size expr [] c' /\ expr <> [] /\ ~ In "]"%char expr /\ w = op ++ suffix ++ T " " ++ (size ++ T "[" ++ expr ++ T "]") ++ T ",".
Proof.
  unfold WRITE_REGEX. rewrite den_cat_cons by discriminate. split.
  - intros (w1 & w2 & c1 & -> & H1 & H2). cbn [den] in H1. destruct H1 as (-> & -> & ->). split; [reflexivity|].
    apply den_cat_cons in H2 as (op & w4 & c2 & -> & H2 & H3); [|discriminate]. apply den_cat_cons in H3 as (suffix & w6 & c3 & -> & H3 & H4); [|discriminate].
    apply den_star_set in H3 as (H3 & ->). apply den_cat_cons in H4 as (sp & w7 & c4 & -> & H4 & H5); [|discriminate]. apply den_char in H4 as (-> & ->).
    apply den_cat_cons in H5 as (d & w8 & c5 & -> & H5 & H6); [|discriminate]. apply den_char in H6 as (-> & ->). apply den_deref in H5 as (size & expr & Hc & Hn & Hf & ->).
    rewrite den_alt_cons in H2 by discriminate. cbn [ralt] in H2. rewrite !den_text in H2.
    assert (In op [T "MOV"; T "TEST"] /\ c2 = []) as (Hop & ->) by (destruct H2 as [[-> ->]|[-> ->]]; cbn [In]; auto).
    exists op, suffix, size, expr. auto 10.
  - intros (-> & op & suffix & size & expr & Hop & Hs & Hc & Hn & Hf & ->). exists [], (op ++ suffix ++ T " " ++ (size ++ T "[" ++ expr ++ T "]") ++ T ","), []. split; [reflexivity|]. split; [cbn; auto|].
    apply den_cat_cons; [discriminate|]. eexists op, _, []. split; [reflexivity|]. split.
    { rewrite den_alt_cons by discriminate. cbn [ralt]. rewrite !den_text. cbn [In] in Hop. destruct Hop as [<-|[<-|[]]]; auto. }
    apply den_cat_cons; [discriminate|]. eexists suffix, _, []. split; [reflexivity|]. split; [now apply den_star_set|].
    apply den_cat_cons; [discriminate|]. eexists (T " "), _, []. split; [reflexivity|]. split; [now apply den_char|].
    apply den_cat_cons; [discriminate|]. eexists _, (T ","), c'. split; [reflexivity|]. split; [|now apply den_char]. apply den_deref. exists size, expr. auto.
Qed.
Lemma den_read b w rest c' : den READ_REGEX b w rest [] c' <->
  b = [] /\ exists op size expr, (3 <= List.length op <= 10)%nat /\ upper_word op /\ deref_caps size expr [] c' /\ expr <> [] /\ ~ In "]"%char expr /\ w = op ++ T " " ++ (size ++ T "[" ++ expr ++ T "]") ++ T ",".
Proof.
  unfold READ_REGEX. rewrite den_cat_cons by discriminate. split.
  - intros (w1 & w2 & c1 & -> & H1 & H2). cbn [den] in H1. destruct H1 as (-> & -> & ->). split; [reflexivity|].
    apply den_cat_cons in H2 as (op & w4 & c2 & -> & H2 & H3); [|discriminate]. apply den_range_set in H2 as (H2 & H2' & ->); [|lia].
    apply den_cat_cons in H3 as (sp & w7 & c4 & -> & H4 & H5); [|discriminate]. apply den_char in H4 as (-> & ->).
    apply den_cat_cons in H5 as (d & w8 & c5 & -> & H5 & H6); [|discriminate]. apply den_char in H6 as (-> & ->). apply den_deref in H5 as (size & expr & Hc & Hn & Hf & ->).
    exists op, size, expr. auto 10.
  - intros (-> & op & size & expr & Hl & Hs & Hc & Hn & Hf & ->). exists [], (op ++ T " " ++ (size ++ T "[" ++ expr ++ T "]") ++ T ","), []. split; [reflexivity|]. split; [cbn; auto|].
    apply den_cat_cons; [discriminate|]. eexists op, _, []. split; [reflexivity|]. split; [apply den_range_set; [lia|auto]|].
    apply den_cat_cons; [discriminate|]. eexists (T " "), _, []. split; [reflexivity|]. split; [now apply den_char|].
    apply den_cat_cons; [discriminate|]. eexists _, (T ","), c'. split; [reflexivity|]. split; [|now apply den_char]. apply den_deref. exists size, expr. auto.
Qed.
Lemma den_load b w rest c' : den LOAD_REGEX b w rest [] c' <->
  exists op x size expr, (3 <= List.length op <= 10)%nat /\ upper_word op /\ x <> [] /\ ~ In ","%char x /\ deref_caps size expr [] c' /\ expr <> [] /\ ~ In "]"%char expr /\ w = op ++ T " " ++ x ++ T ", " ++ (size ++ T "[" ++ expr ++ T "]").
Proof.
  unfold LOAD_REGEX. rewrite den_cat_cons by discriminate. split.
  - intros (op & w4 & c2 & -> & H2 & H3). apply den_range_set in H2 as (H2 & H2' & ->); [|lia].
    apply den_cat_cons in H3 as (sp & w7 & c4 & -> & H4 & H5); [|discriminate]. apply den_char in H4 as (-> & ->).
    apply den_cat_cons in H5 as (x & w8 & c5 & -> & H5 & H6); [|discriminate]. apply den_plus_set in H5 as (Hx & Hx' & ->). apply Forall_not_in in Hx'.
    apply den_cat_cons in H6 as (cm & w9 & c6 & -> & H6 & H7); [|discriminate]. apply den_text in H6 as (-> & ->). cbn [rcat] in H7. apply den_deref in H7 as (size & expr & Hc & Hn & Hf & ->).
    exists op, x, size, expr. auto 10.
  - intros (op & x & size & expr & Hl & Hs & Hx & Hx' & Hc & Hn & Hf & ->). eexists op, _, []. split; [reflexivity|]. split; [apply den_range_set; [lia|auto]|].
    apply den_cat_cons; [discriminate|]. eexists (T " "), _, []. split; [reflexivity|]. split; [now apply den_char|].
    apply den_cat_cons; [discriminate|]. eexists x, _, []. split; [reflexivity|]. split; [apply den_plus_set; split; [exact Hx|]; split; [now apply Forall_not_in|reflexivity]|].
    apply den_cat_cons; [discriminate|]. eexists (T ", "), _, []. split; [reflexivity|]. split; [now apply den_text|]. cbn [rcat]. apply den_deref. exists size, expr. auto.
Qed.
Lemma write_iff asm : (exists m, re_search WRITE_REGEX asm = Some m) <-> write_form asm.
Proof.
  rewrite re_search_iff. split.
  - intros (pre & w & rest & c & -> & H). apply den_write in H as (Hb & op & suffix & size & expr & Hop & Hs & Hc & Hn & Hf & ->). apply (f_equal (@rev ascii)) in Hb. rewrite rev_involutive in Hb. subst pre.
    exists op, suffix, (size ++ T "[" ++ expr ++ T "]"), rest. split; [exact Hop|]. split; [exact Hs|]. split; [exists size, expr; split; [eapply deref_caps_text; exact Hc|auto]|]. cbn [app rev]. now rewrite <- !app_assoc.
  - intros (op & suffix & d & rest & Hop & Hs & Hd & ->). destruct (deref_text_caps d [] Hd) as (size & expr & c' & Hc & Hn & Hf & ->).
    exists [], (op ++ suffix ++ T " " ++ (size ++ T "[" ++ expr ++ T "]") ++ T ","), rest, c'. split; [now rewrite <- !app_assoc|]. apply den_write. split; [reflexivity|]. exists op, suffix, size, expr. auto 10.
Qed.
Lemma read_iff asm : (exists m, re_search READ_REGEX asm = Some m) <-> read_form asm.
Proof.
  rewrite re_search_iff. split.
  - intros (pre & w & rest & c & -> & H). apply den_read in H as (Hb & op & size & expr & Hop & Hs & Hc & Hn & Hf & ->). apply (f_equal (@rev ascii)) in Hb. rewrite rev_involutive in Hb. subst pre.
    exists op, (size ++ T "[" ++ expr ++ T "]"), rest. split; [exact Hop|]. split; [exact Hs|]. split; [exists size, expr; split; [eapply deref_caps_text; exact Hc|auto]|]. cbn [app rev]. now rewrite <- !app_assoc.
  - intros (op & d & rest & Hop & Hs & Hd & ->). destruct (deref_text_caps d [] Hd) as (size & expr & c' & Hc & Hn & Hf & ->).
    exists [], (op ++ T " " ++ (size ++ T "[" ++ expr ++ T "]") ++ T ","), rest, c'. split; [now rewrite <- !app_assoc|]. apply den_read. split; [reflexivity|]. exists op, size, expr. auto 10.
Qed.
Lemma load_iff asm : (exists m, re_match LOAD_REGEX asm = Some m) <-> load_form asm.
Proof.
  rewrite re_match_iff. split.
  - intros (w & rest & c & -> & H). apply den_load in H as (op & x & size & expr & Hop & Hs & Hx & Hx' & Hc & Hn & Hf & ->).
    exists op, x, (size ++ T "[" ++ expr ++ T "]"), rest. split; [exact Hop|]. split; [exact Hs|]. split; [exact Hx|]. split; [exact Hx'|]. split; [exists size, expr; split; [eapply deref_caps_text; exact Hc|auto]|]. now rewrite <- !app_assoc.
  - intros (op & x & d & rest & Hop & Hs & Hx & Hx' & Hd & ->). destruct (deref_text_caps d [] Hd) as (size & expr & c' & Hc & Hn & Hf & ->).
    exists (op ++ T " " ++ x ++ T ", " ++ (size ++ T "[" ++ expr ++ T "]")), rest, c'. split; [now rewrite <- !app_assoc|]. apply den_load. exists op, x, size, expr. auto 12.
Qed.
(** The size is never found *)
Lemma write_size asm m : re_search WRITE_REGEX asm = Some m -> findDerefSize m = None.
Proof. intros H. apply search_sound in H as (pre & _ & _ & H & _). apply den_write in H as (_ & op & suffix & size & expr & _ & _ & Hc & _). eapply sized_none, deref_caps_sized. exact Hc. Qed.
Lemma read_size asm m : re_search READ_REGEX asm = Some m -> findDerefSize m = None.
Proof. intros H. apply search_sound in H as (pre & _ & _ & H & _). apply den_read in H as (_ & op & size & expr & _ & _ & Hc & _). eapply sized_none, deref_caps_sized. exact Hc. Qed.
Lemma load_size asm m : re_match LOAD_REGEX asm = Some m -> findDerefSize m = None.
Proof. intros H. apply match_at_sound in H as (_ & _ & H). apply den_load in H as (op & x & size & expr & _ & _ & _ & _ & Hc & _). eapply sized_none, deref_caps_sized. exact Hc. Qed.

(** MOVS and SCAS *)
Definition movs_caps (operator : text) (suffix : option ascii) (c' : caps) : Prop :=
  c' = match suffix with Some x => dset Nat.eqb SUFFIX [x] [(OPERATOR, operator)] | None => [(OPERATOR, operator)] end.
Lemma den_rep b w rest c c' : den (ropt (rcat [rtext (T "REP"); ropt (rtext (T "NZ")); rchar " "%char])) b w rest c c' <-> In w [[]; T "REP "; T "REPNZ "] /\ c' = c.
Proof.
  rewrite den_opt. rewrite den_cat_cons by discriminate. cbn [In]. split.
  - intros [(w1 & w2 & c1 & -> & H1 & H2)|[-> ->]]; [|auto]. apply den_text in H1 as (-> & ->). apply den_cat_cons in H2 as (w3 & w4 & c2 & -> & H2 & H3); [|discriminate]. apply den_char in H3 as (-> & ->).
    apply den_opt in H2 as [H2|[-> ->]]; [apply den_text in H2 as (-> & ->)|]; auto.
  - intros [[<-|[<-|[<-|[]]]] ->]; [auto| |]; left.
    + exists (T "REP"), (T " "), c. split; [reflexivity|]. split; [now apply den_text|]. apply den_cat_cons; [discriminate|]. exists [], (T " "), c. split; [reflexivity|]. split; [apply den_opt; auto|now apply den_char].
    + exists (T "REP"), (T "NZ "), c. split; [reflexivity|]. split; [now apply den_text|]. apply den_cat_cons; [discriminate|]. exists (T "NZ"), (T " "), c. split; [reflexivity|]. split; [apply den_opt; left; now apply den_text|now apply den_char].
Qed.
Lemma den_movs b w rest c' : den MOVS_REGEX b w rest [] c' <->
  b = [] /\ exists prefix operator suffix, In prefix [[]; T "REP "; T "REPNZ "] /\ In operator [T "MOVS"; T "SCAS"] /\ movs_caps operator suffix c' /\
    w = prefix ++ operator ++ match suffix with Some x => [x] | None => [] end /\ match suffix with Some x => In x (T "BWD") | None => True end.
Proof.
  unfold MOVS_REGEX. rewrite den_cat_cons by discriminate. split.
  - intros (w1 & w2 & c1 & -> & H1 & H2). cbn [den] in H1. destruct H1 as (-> & -> & ->). split; [reflexivity|].
    apply den_cat_cons in H2 as (prefix & w4 & c2 & -> & H2 & H3); [|discriminate]. apply den_rep in H2 as (Hp & ->).
    apply den_cat_cons in H3 as (operator & w5 & c3 & -> & H3 & H4); [|discriminate]. destruct H3 as (c4 & H3 & ->). rewrite den_alt_cons in H3 by discriminate. cbn [ralt] in H3. rewrite !den_text in H3.
    assert (In operator [T "MOVS"; T "SCAS"] /\ c4 = []) as (Ho & ->) by (destruct H3 as [[-> ->]|[-> ->]]; cbn [In]; auto). cbn [rcat] in H4. apply den_opt in H4 as [H4|[-> ->]].
    + destruct H4 as (c5 & (x & -> & Hx & ->) & ->). exists prefix, operator, (Some x). split; [exact Hp|]. split; [exact Ho|]. split; [reflexivity|]. split; [reflexivity|].
      unfold is_in in Hx. apply existsb_exists in Hx as (y & Hy & E). apply Ascii.eqb_eq in E as ->. exact Hy.
    + exists prefix, operator, None. split; [exact Hp|]. split; [exact Ho|]. split; [reflexivity|]. split; [now rewrite app_nil_r|exact I].
  - intros (-> & prefix & operator & suffix & Hp & Ho & -> & -> & Hx). exists [], (prefix ++ operator ++ match suffix with Some x => [x] | None => [] end), []. split; [reflexivity|]. split; [cbn; auto|].
    apply den_cat_cons; [discriminate|]. eexists prefix, _, []. split; [reflexivity|]. split; [now apply den_rep|].
    apply den_cat_cons; [discriminate|]. eexists operator, _, [(OPERATOR, operator)]. split; [reflexivity|]. split.
    { exists []. split; [|reflexivity]. rewrite den_alt_cons by discriminate. cbn [ralt]. rewrite !den_text. cbn [In] in Ho. destruct Ho as [<-|[<-|[]]]; auto. }
    cbn [rcat]. apply den_opt. destruct suffix as [x|]; [left|right; auto]. exists [(OPERATOR, operator)]. split; [|reflexivity]. exists x. split; [reflexivity|]. split; [|reflexivity].
    unfold is_in. apply existsb_exists. exists x. now rewrite Ascii.eqb_refl.
Qed.
Lemma movs_iff asm : (exists m, re_search MOVS_REGEX asm = Some m) <-> exists o, string_form o asm.
Proof.
  rewrite re_search_iff. split.
  - intros (pre & w & rest & c & -> & H). apply den_movs in H as (Hb & prefix & o & suffix & Hp & Ho & _ & -> & _). apply (f_equal (@rev ascii)) in Hb. rewrite rev_involutive in Hb. subst pre.
    eexists o, prefix, _. split; [exact Hp|]. split; [exact Ho|]. cbn [rev app]. rewrite <- !app_assoc. reflexivity.
  - intros (o & prefix & rest & Hp & Ho & ->). exists [], (prefix ++ o ++ []), rest, [(OPERATOR, o)]. split; [now rewrite <- !app_assoc|]. apply den_movs. split; [reflexivity|]. exists prefix, o, None. split; [exact Hp|]. split; [exact Ho|]. split; [reflexivity|]. auto.
Qed.
Lemma movs_match asm m : re_search MOVS_REGEX asm = Some m -> exists o, string_form o asm /\ group OPERATOR (m_groups m) = Some o /\ (group SUFFIX (m_groups m) = None \/ exists x, In x (T "BWD") /\ group SUFFIX (m_groups m) = Some [x]).
Proof.
  intros H. apply search_sound in H as (pre & -> & _ & H & _). apply den_movs in H as (Hb & prefix & o & suffix & Hp & Ho & Hc & -> & Hx). rewrite app_nil_r in Hb. apply (f_equal (@rev ascii)) in Hb. rewrite rev_involutive in Hb. subst pre.
  exists o. split; [eexists prefix, _; split; [exact Hp|]; split; [exact Ho|]; cbn [rev app]; rewrite <- !app_assoc; reflexivity|]. unfold movs_caps in Hc. destruct suffix as [x|]; rewrite !Hc; (split; [reflexivity|]); [right; exists x; split; [exact Hx|reflexivity]|left; reflexivity].
Qed.
(** Every suffix is found *)
Lemma string_size_found asm n : string_size asm n -> exists m, re_search MOVS_REGEX asm = Some m /\ movs_size (group SUFFIX (m_groups m)) = Some n.
Proof.
  intros (prefix & o & x & rest & Hp & Ho & Hx & ->). cbn [In] in Hp, Ho, Hx.
  destruct Hp as [<-|[<-|[<-|[]]]], Ho as [<-|[<-|[]]], Hx as [E|[E|[E|[]]]]; injection E as <- <-;
    (eexists; split; [cbv -[firstn List.length Nat.sub]; reflexivity|];
     cbn [m_groups group]; unfold group; cbn [dget Nat.eqb SUFFIX fst snd]; cbn [List.length]; rewrite Nat.sub_succ_l, Nat.sub_diag by auto; reflexivity).
Qed.
Lemma movs_size_iff asm m n : re_search MOVS_REGEX asm = Some m -> movs_size (group SUFFIX (m_groups m)) = Some n <-> string_size asm n.
Proof.
  intros H. split.
  - apply search_sound in H as (pre & -> & _ & H & _). apply den_movs in H as (Hb & prefix & o & suffix & Hp & Ho & Hc & -> & Hx). rewrite app_nil_r in Hb. apply (f_equal (@rev ascii)) in Hb. rewrite rev_involutive in Hb. subst pre.
    unfold movs_caps in Hc. rewrite Hc. destruct suffix as [x|]; [|discriminate]. intros E. eexists prefix, o, x, _. split; [exact Hp|]. split; [exact Ho|]. split; [|cbn [rev app]; rewrite <- !app_assoc; reflexivity].
    cbn [T list_ascii_of_string In] in Hx. destruct Hx as [<-|[<-|[<-|[]]]]; cbn in E; injection E as <-; cbn; auto.
  - intros Hs. apply string_size_found in Hs as (m2 & E & Hn). congruence.
Qed.
(** An instruction has one operator *)
Lemma string_form_unique o1 o2 asm : string_form o1 asm -> string_form o2 asm -> o1 = o2.
Proof.
  intros (p1 & r1 & H1 & H2 & ->) (p2 & r2 & H3 & H4 & E). cbn [In] in *.
  destruct H1 as [<-|[<-|[<-|[]]]], H2 as [<-|[<-|[]]], H3 as [<-|[<-|[<-|[]]]], H4 as [<-|[<-|[]]]; try reflexivity; cbn in E; discriminate E.
Qed.
Lemma div_iff asm : (exists m, re_match DIV_REGEX asm = Some m) <-> div_form asm.
Proof.
  rewrite re_match_iff. unfold DIV_REGEX. split.
  - intros (w & rest & c & -> & H). apply den_cat_cons in H as (i & w2 & c1 & -> & H1 & H2); [|discriminate]. apply den_cat_cons in H2 as (d & w4 & c2 & -> & H2 & H3); [|discriminate]. apply den_text in H2 as (-> & ->).
    exists (w4 ++ rest). apply den_opt in H1 as [H1|[-> ->]]; [apply den_char in H1 as (-> & ->); right|left]; reflexivity.
  - intros (rest & H). assert (exists i, asm = i ++ T "DIV " ++ rest /\ (i = T "I" \/ i = [])) as (i & -> & Hi) by (destruct H as [->| ->]; [exists []|exists (T "I")]; auto). exists (i ++ T "DIV " ++ []), rest, [(1%nat, [])].
    split; [now rewrite <- !app_assoc|]. apply den_cat_cons; [discriminate|]. eexists i, _, []. split; [reflexivity|]. split; [apply den_opt; destruct Hi as [->| ->]; [left; now apply den_char|right; auto]|].
    apply den_cat_cons; [discriminate|]. eexists (T "DIV "), [], []. split; [reflexivity|]. split; [now apply den_text|]. cbn [rcat]. exists []. split; [|reflexivity]. apply den_star_set. auto.
Qed.

(** ** The registers *)
Section Words.
  Context (W : regex) (name : text -> Prop).
  Hypothesis W_den : forall b w rest c', den W b w rest [] c' <-> c' = [] /\ w <> [] /\ Forall (fun x => is_word x = true) w /\ name w /\ starts_word b = false /\ starts_word rest = false.
  Lemma finditer_sound fuel : forall before rest m, In m (finditer_aux fuel W before rest) ->
    rev before ++ rest = m_before m ++ m_text m ++ m_after m /\ den W (rev (m_before m)) (m_text m) (m_after m) [] (m_groups m).
  Proof using.
    clear W_den. induction fuel as [|fuel IH]; intros before rest m; cbn [finditer_aux]; [contradiction|]. destruct (search_from W before rest) as [m1|] eqn:E; [|contradiction].
    apply search_sound in E as (pre & E1 & E2 & E3 & _). assert (rev before ++ rest = m_before m1 ++ m_text m1 ++ m_after m1) as Em by (rewrite E1, E2, <- app_assoc; reflexivity).
    assert (rev (m_before m1) = rev pre ++ before) as Eb by (rewrite E2, rev_app_distr, rev_involutive; reflexivity). cbn [In].
    intros [<-|H]; [split; [exact Em|now rewrite Eb]|]. apply IH in H as (H1 & H2). split; [|exact H2]. rewrite <- H1, Em, rev_app_distr, !rev_involutive, <- !app_assoc. reflexivity.
  Qed.
  Lemma run_unique (u v : text) : forall x y, Forall (fun c => is_word c = true) u -> Forall (fun c => is_word c = true) v -> starts_word x = false -> starts_word y = false -> u ++ x = v ++ y -> u = v /\ x = y.
  Proof using.
    clear W_den. revert v. induction u as [|c u IH]; intros v x y Hu Hv Hx Hy E.
    - destruct v as [|d v]; [auto|]. cbn in E. subst x. inversion Hv; subst. cbn in Hx. congruence.
    - destruct v as [|d v]; [cbn in E; subst y; inversion Hu; subst; cbn in Hy; congruence|]. cbn in E. injection E as -> E. inversion Hu; inversion Hv; subst. destruct (IH v x y) as [-> ->]; auto.
  Qed.
  Lemma finditer_complete fuel : forall before pre w post, (List.length (pre ++ w ++ post) < fuel)%nat -> den W (rev pre ++ before) w post [] [] ->
    exists m, In m (finditer_aux fuel W before (pre ++ w ++ post)) /\ m_text m = w.
  Proof.
    induction fuel as [|fuel IH]; intros before pre w post Hl Hd; [lia|]. cbn [finditer_aux]. destruct (search_from W before (pre ++ w ++ post)) as [m|] eqn:E; [|exfalso; revert E; eapply search_complete; exact Hd].
    apply search_sound in E as (pre1 & E1 & E2 & E3 & E4). apply W_den in Hd as Hd'. destruct Hd' as (_ & Hw & Hww & Hn & Hb & Hr). apply W_den in E3 as (_ & Hmn & Hmw & _ & _ & Hma).
    apply app_eq_app in E1 as (l & [[E5 E6]|[E5 E6]]).
    - (* pre = pre1 ++ l *) destruct l as [|x l].
      + cbn in E6. apply run_unique in E6 as (E6 & _); auto. exists m. split; [now left|exact E6].
      + assert (exists l2, (x :: l) = m_text m ++ l2 /\ m_after m = l2 ++ w ++ post) as (l2 & E7 & E8).
        { apply app_eq_app in E6 as (l2 & [[E7 E8]|[E7 E8]]); [|eauto]. destruct l2 as [|y l2]; [rewrite app_nil_r in E7; exists []; split; [now rewrite app_nil_r|now symmetry]|]. exfalso.
          (* the match goes on after the end of pre: the last character of pre is a word character, and so is the first of w *)
          rewrite E7 in Hmw. apply Forall_app in Hmw as [Hxl _]. rewrite E5 in Hb. rewrite rev_app_distr in Hb. destruct (@exists_last _ (x :: l)) as (l' & z & Ez); [discriminate|]. rewrite Ez in *. apply Forall_app in Hxl as [_ Hz]. inversion Hz; subst.
          rewrite rev_app_distr in Hb. cbn in Hb. congruence. }
        destruct (IH (rev (m_text m) ++ rev (m_before m)) l2 w post) as (m' & H1 & H2).
        * rewrite E5, E7 in Hl. rewrite !app_length in *. destruct (m_text m); [congruence|cbn in *; lia].
        * rewrite E5, E7 in Hd. rewrite !rev_app_distr in Hd. rewrite <- !app_assoc in Hd. rewrite E2, rev_app_distr, rev_involutive. exact Hd.
        * exists m'. split; [right; rewrite E8; exact H1|exact H2].
    - destruct l as [|x l].
      + rewrite app_nil_r in E5. subst pre1. cbn in E6. symmetry in E6. apply run_unique in E6 as (E6 & _); auto. exists m. split; [now left|congruence].
      + exfalso. specialize (E4 pre x l E5). revert E4. rewrite <- E6. eapply match_at_complete. exact Hd.
  Qed.
  Lemma no_word_end t : no_word_at_end t <-> starts_word (rev t) = false.
  Proof using.
    clear W_den. unfold no_word_at_end. split.
    - intros H. destruct (rev t) as [|c l] eqn:E; [reflexivity|]. cbn. apply (H (rev l)). apply (f_equal (@rev ascii)) in E. rewrite rev_involutive in E. exact E.
    - intros H t' c ->. rewrite rev_app_distr in H. exact H.
  Qed.
  Lemma no_word_start t : no_word_at_start t <-> starts_word t = false.
  Proof using. clear W_den. unfold no_word_at_start. split; [intros H; destruct t as [|c t]; [reflexivity|cbn; now apply (H t)]|intros H t' c ->; exact H]. Qed.
  Lemma words_iff asm w : (w <> [] -> name w -> Forall (fun x => is_word x = true) w) -> name w -> w <> [] ->
    (exists m, In m (re_finditer W asm) /\ m_text m = w) <-> word_of asm w.
  Proof.
    intros Hword Hn Hw. unfold re_finditer, word_of. split.
    - intros (m & H & <-). apply finditer_sound in H as (H1 & H2). apply W_den in H2 as (_ & _ & _ & _ & Hb & Ha). exists (m_before m), (m_after m). split; [exact H1|]. split; [now apply no_word_end|now apply no_word_start].
    - intros (before & after & -> & H1 & H2). apply finditer_complete; [lia|]. rewrite app_nil_r. apply W_den. split; [reflexivity|]. split; [exact Hw|]. split; [auto|]. split; [exact Hn|]. split; [now apply no_word_end|now apply no_word_start].
  Qed.
  Lemma words_name asm m : In m (re_finditer W asm) -> name (m_text m) /\ m_text m <> [] /\ word_of asm (m_text m).
  Proof.
    intros H. apply finditer_sound in H as (H1 & H2). apply W_den in H2 as (_ & Hm & _ & Hn & Hb & Ha). split; [exact Hn|]. split; [exact Hm|]. exists (m_before m), (m_after m). split; [exact H1|]. split; [now apply no_word_end|now apply no_word_start].
  Qed.
End Words.
