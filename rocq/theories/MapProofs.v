From Coq Require Import ZArith List Ascii String Bool Lia.
From Verif Require Import PyBase PyFacts Platform IntModel RegexModel RegexFacts MapModel MapSpec MemProofs.
Import ListNotations.
Open Scope Z_scope.

(** ** C18 *)
Lemma find_sub_some p : forall s n, find_sub p s = Some n -> exists before after, s = before ++ p ++ after /\ List.length before = n.
Proof.
  induction s as [|x s IH]; intros n; cbn [find_sub].
  - destruct (starts_with p []) eqn:E; [|discriminate]. intros [= <-]. apply starts_with_spec in E as [r E]. now exists [], r.
  - destruct (starts_with p (x :: s)) eqn:E.
    + intros [= <-]. apply starts_with_spec in E as [r E]. now exists [], r.
    + destruct (find_sub p s) as [m|] eqn:Ef; [|discriminate]. intros [= <-]. destruct (IH m eq_refl) as (b & a & -> & Hl). exists (x :: b), a. cbn. now rewrite Hl.
Qed.
Lemma find_sub_before p : forall s before after, s = before ++ p ++ after -> exists n, find_sub p s = Some n /\ (n <= List.length before)%nat.
Proof.
  induction s as [|x s IH]; intros before after E; cbn [find_sub].
  - destruct before; [|discriminate]. destruct p; [|discriminate]. exists O. cbn. auto.
  - destruct (starts_with p (x :: s)) eqn:Es; [exists O; split; [reflexivity|lia]|]. destruct before as [|y before].
    + exfalso. apply not_true_iff_false in Es. apply Es. apply starts_with_spec. now exists after.
    + injection E as -> E. destruct (IH before after E) as (n & -> & Hn). exists (S n). cbn. split; [reflexivity|lia].
Qed.
Lemma occurs_spec pat s i : occurs pat s i <-> exists before after, s = before ++ pat ++ after /\ zlen before = i.
Proof. reflexivity. Qed.
Lemma zlen_split {A} (l : list A) n : 0 <= n <= zlen l -> exists a b, l = a ++ b /\ zlen a = n.
Proof.
  intros H. exists (firstn (Z.to_nat n) l), (skipn (Z.to_nat n) l). split; [symmetry; apply firstn_skipn|]. unfold zlen in *. rewrite firstn_length. lia.
Qed.
Lemma app_split {A} (a b c d : list A) : a ++ b = c ++ d -> zlen a <= zlen c -> exists m, c = a ++ m /\ b = m ++ d.
Proof.
  revert c. induction a as [|x a IH]; intros c E Hl; [now exists c|]. destruct c as [|y c]; [rewrite zlen_cons, zlen_nil in Hl; pose proof (zlen_nonneg a); lia|].
  injection E as -> E. rewrite !zlen_cons in Hl. destruct (IH c E ltac:(lia)) as (m & -> & ->). now exists m.
Qed.
Lemma occurs_shift pat a s i : occurs pat (a ++ s) i -> zlen a <= i -> occurs pat s (i - zlen a).
Proof.
  intros (b & c & E & Hi) Hl. destruct (app_split a s b (pat ++ c) E ltac:(lia)) as (m & -> & ->). exists m, c. rewrite zlen_app in Hi. split; [reflexivity|lia].
Qed.
Lemma occurs_unshift pat a s i : occurs pat s i -> occurs pat (a ++ s) (zlen a + i).
Proof. intros (b & c & -> & Hi). exists (a ++ b), c. rewrite <- app_assoc, zlen_app. split; [reflexivity|lia]. Qed.
Lemma apart_shift n d l : apart n l -> apart n (map (fun o => d + o) l).
Proof.
  induction l as [|a l IH]; [auto|]. cbn. intros [H1 H2]. split; [|auto]. apply Forall_map. eapply Forall_impl; [|exact H1]. cbn. intros; lia.
Qed.

Lemma buf_len_ge pat : zlen pat <= buf_len pat.
Proof. unfold buf_len. destruct (64 * 1024 <? zlen pat) eqn:E; zb; lia. Qed.

Section Search.
  Context (read : Z -> Z -> res (list byte)) (pat : list byte) (start : Z) (content : list byte).
  Context (Hreads : reads read start content) (Hpat : pat <> []).
  Lemma pat_pos : 1 <= zlen pat.
  Proof. destruct pat as [|x l]; [congruence|]. rewrite zlen_cons. pose proof (zlen_nonneg l). lia. Qed.
  Definition complete (s : list byte) (L : list Z) : Prop :=
    forall i, occurs pat s i -> In i L \/ exists o, In o L /\ o < i < o + zlen pat.
  Lemma loop_spec : forall fuel pre s, content = pre ++ s -> zlen s <= Z.of_nat fuel ->
    exists L, search_loop read pat fuel (start + zlen pre) (zlen s) = (map (fun o => start + zlen pre + o) L, Ok tt) /\
      Forall (occurs pat s) L /\ apart (zlen pat) L /\ complete s L.
  Proof.
    pose proof pat_pos as Hp. induction fuel as [|fuel IH]; intros pre s Hc Hf; cbn [search_loop].
    - destruct (zlen pat <=? zlen s) eqn:E; zb; [pose proof (zlen_nonneg s); lia|]. exists []. split; [reflexivity|]. split; [constructor|]. split; [exact I|].
      intros i (b & c & -> & _). exfalso. rewrite !zlen_app in E. pose proof (zlen_nonneg b). pose proof (zlen_nonneg c). lia.
    - destruct (zlen pat <=? zlen s) eqn:E; zb.
      2:{ exists []. split; [reflexivity|]. split; [constructor|]. split; [exact I|].
          intros i (b & c & -> & _). exfalso. rewrite !zlen_app in E. pose proof (zlen_nonneg b). pose proof (zlen_nonneg c). lia. }
      cbv zeta. set (requested := if buf_len pat <? zlen s then buf_len pat else zlen s).
      assert (zlen pat <= requested <= zlen s) as Hr.
      { pose proof (buf_len_ge pat). unfold requested. destruct (_ <? zlen s) eqn:E1; zb; lia. }
      destruct (zlen_split s requested ltac:(lia)) as (data & rest & -> & Hd). clearbody requested. pose proof (Hreads pre data rest Hc) as Hrd. rewrite Hd in Hrd. rewrite Hrd. clear Hrd.
      destruct (find_sub pat data) as [o|] eqn:Ef.
      + destruct (find_sub_some pat data o Ef) as (b & a & -> & Ho). assert (zlen b = Z.of_nat o) as Hb by (unfold zlen; now rewrite Ho).
        destruct (IH (pre ++ b ++ pat) (a ++ rest)) as (L & HL & H1 & H2 & H3).
        { rewrite Hc, <- !app_assoc. reflexivity. } { rewrite !zlen_app in *. pose proof (zlen_nonneg b). lia. }
        exists (Z.of_nat o :: map (fun x => Z.of_nat o + zlen pat + x) L).
        replace (start + zlen pre + (Z.of_nat o + zlen pat)) with (start + zlen (pre ++ b ++ pat)) by (rewrite !zlen_app; lia).
        replace (zlen ((b ++ pat ++ a) ++ rest) - (Z.of_nat o + zlen pat)) with (zlen (a ++ rest)) by (rewrite !zlen_app; lia). rewrite HL.
        split; [|split; [|split]].
        * cbn [map]. f_equal. f_equal. rewrite map_map. apply map_ext. intros x. rewrite !zlen_app. lia.
        * constructor; [exists b, (a ++ rest); split; [now rewrite <- !app_assoc|exact Hb]|]. apply Forall_map. eapply Forall_impl; [|exact H1]. intros x Hx.
          replace ((b ++ pat ++ a) ++ rest) with ((b ++ pat) ++ a ++ rest) by now rewrite <- !app_assoc.
          replace (Z.of_nat o + zlen pat + x) with (zlen (b ++ pat) + x) by (rewrite zlen_app; lia). now apply occurs_unshift.
        * cbn [apart]. split; [|now apply apart_shift]. apply Forall_map. apply Forall_forall. intros x Hx. rewrite Forall_forall in H1. destruct (H1 x Hx) as (b' & _ & _ & Hb').
          pose proof (zlen_nonneg b'). lia.
        * intros i Hi. destruct (Z_lt_le_dec i (Z.of_nat o)) as [Hlt|Hge].
          { exfalso. destruct Hi as (b2 & c2 & E2 & Hi2). assert (exists c3, b ++ pat ++ a = b2 ++ pat ++ c3) as (c3 & E3).
            { rewrite (app_assoc b2 pat) in E2. symmetry in E2. destruct (app_split (b2 ++ pat) c2 (b ++ pat ++ a) rest E2) as (m & E4 & _); [rewrite !zlen_app; pose proof (zlen_nonneg a); lia|].
              exists m. rewrite E4, <- app_assoc. reflexivity. }
            destruct (find_sub_before pat (b ++ pat ++ a) b2 c3 E3) as (n & En & Hn). rewrite Ef in En. injection En as <-. unfold zlen in Hi2. lia. }
          destruct (Z.eq_dec i (Z.of_nat o)) as [->|Hne]; [left; now left|].
          destruct (Z_lt_le_dec i (Z.of_nat o + zlen pat)) as [Hov|Hfar]; [right; exists (Z.of_nat o); split; [now left|lia]|].
          assert (occurs pat (a ++ rest) (i - (Z.of_nat o + zlen pat))) as Hi'.
          { replace (Z.of_nat o + zlen pat) with (zlen (b ++ pat)) by (rewrite zlen_app; lia). apply occurs_shift; [|rewrite zlen_app; lia]. now rewrite <- !app_assoc in *. }
          destruct (H3 _ Hi') as [Hin|(x & Hin & Hx)].
          { left. right. apply in_map_iff. exists (i - (Z.of_nat o + zlen pat)). split; [lia|exact Hin]. }
          { right. exists (Z.of_nat o + zlen pat + x). split; [right; apply in_map_iff; now exists x|lia]. }
      + set (skip := requested - zlen pat + 1). destruct (zlen_split (data ++ rest) skip ltac:(unfold skip; lia)) as (d1 & d2 & E2 & Hd1).
        destruct (IH (pre ++ d1) d2) as (L & HL & H1 & H2 & H3).
        { rewrite Hc, E2, <- !app_assoc. reflexivity. } { rewrite E2, zlen_app in Hf. unfold skip in Hd1. lia. }
        exists (map (fun x => skip + x) L). replace (start + zlen pre + skip) with (start + zlen (pre ++ d1)) by (rewrite zlen_app; lia).
        replace (zlen (data ++ rest) - skip) with (zlen d2) by (rewrite E2, zlen_app; lia). rewrite HL. split; [|split; [|split]].
        * f_equal. rewrite map_map. apply map_ext. intros x. rewrite zlen_app. lia.
        * apply Forall_map. eapply Forall_impl; [|exact H1]. intros x Hx. rewrite E2, <- Hd1. now apply occurs_unshift.
        * now apply apart_shift.
        * intros i Hi. destruct (Z_lt_le_dec i skip) as [Hlt|Hge].
          { exfalso. destruct Hi as (b2 & c2 & E3 & Hi2). rewrite (app_assoc b2 pat) in E3. symmetry in E3.
            destruct (app_split (b2 ++ pat) c2 data rest E3) as (m & E4 & _); [rewrite zlen_app; unfold skip in Hlt; lia|]. rewrite <- app_assoc in E4.
            destruct (find_sub_before pat data b2 m E4) as (n & En & _). congruence. }
          rewrite E2 in Hi. apply occurs_shift in Hi; [|lia]. rewrite Hd1 in Hi. destruct (H3 _ Hi) as [Hin|(x & Hin & Hx)].
          { left. apply in_map_iff. exists (i - skip). split; [lia|exact Hin]. }
          { right. exists (skip + x). split; [apply in_map_iff; now exists x|lia]. }
  Qed.
  Lemma search_spec m : mp_start m = start -> mp_end m = start + zlen content ->
    exists L, search read pat m = (map (fun o => start + o) L, Ok tt) /\
      Forall (occurs pat content) L /\ apart (zlen pat) L /\ complete content L.
  Proof.
    intros H1 H2. unfold search. rewrite H1, H2. replace (start + zlen content - start) with (zlen content) by lia.
    destruct (loop_spec (Z.to_nat (zlen content)) [] content eq_refl) as (L & HL & H3); [pose proof (zlen_nonneg content); lia|].
    rewrite zlen_nil, Z.add_0_r in HL. exists L. auto.
  Qed.
End Search.
(** Reading errors end the search with that error; what was found before it is real *)
Lemma search_partial read pat : pat <> [] -> (forall a n s, read a n = Ok s -> zlen s <= n) -> forall fuel covered remaining L r,
  remaining <= Z.of_nat fuel -> search_loop read pat fuel covered remaining = (L, r) ->
  (match r with Err e => e <> EDiverges \/ exists a n, read a n = Err EDiverges | Ok _ => True end) /\ apart (zlen pat) L /\ Forall (fun a => covered <= a) L /\
  Forall (fun a => a + zlen pat <= covered + remaining) L /\
  Forall (fun a => exists b n data i, read b n = Ok data /\ occurs pat data i /\ a = b + i) L.
Proof.
  intros Hne Hsz. assert (1 <= zlen pat) as Hp by (destruct pat as [|x l]; [congruence|]; rewrite zlen_cons; pose proof (zlen_nonneg l); lia).
  induction fuel as [|fuel IH]; intros covered remaining L r Hf; cbn [search_loop].
  - destruct (zlen pat <=? remaining) eqn:E; zb; [lia|]. intros [= <- <-]. repeat split; constructor.
  - destruct (zlen pat <=? remaining) eqn:E; zb; [|intros [= <- <-]; repeat split; constructor].
    cbv zeta. set (requested := if buf_len pat <? remaining then buf_len pat else remaining).
    assert (zlen pat <= requested <= remaining) as Hr.
    { pose proof (buf_len_ge pat). unfold requested. destruct (_ <? remaining) eqn:E1; zb; lia. }
    destruct (read covered requested) as [data|e] eqn:Er.
    2:{ intros [= <- <-]. split; [|repeat split; constructor]. destruct e; (left; discriminate) || (right; eauto). }
    pose proof (Hsz _ _ _ Er) as Hdl. destruct (find_sub pat data) as [o|] eqn:Ef.
    + destruct (search_loop read pat fuel _ _) as [found r'] eqn:El. intros [= <- <-]. apply IH in El as (H1 & H2 & H3 & H4 & H5); [|lia].
      destruct (find_sub_some pat data o Ef) as (b & a & -> & Ho). assert (zlen b = Z.of_nat o) as Hb by (unfold zlen; now rewrite Ho). rewrite !zlen_app in Hdl. pose proof (zlen_nonneg a).
      split; [exact H1|]. split; [|split; [|split]].
      * cbn. split; [|exact H2]. eapply Forall_impl; [|exact H3]. cbn. intros; lia.
      * constructor; [lia|]. eapply Forall_impl; [|exact H3]. cbn. intros; lia.
      * constructor; [lia|]. eapply Forall_impl; [|exact H4]. cbn. intros; lia.
      * constructor; [|exact H5]. exists covered, requested, (b ++ pat ++ a), (Z.of_nat o). split; [exact Er|]. split; [|reflexivity]. now exists b, a.
    + intros H. apply IH in H as (H1 & H2 & H3 & H4 & H5); [|lia]. split; [exact H1|]. split; [exact H2|]. split; [|split; [|exact H5]].
      * eapply Forall_impl; [|exact H3]. cbn. intros; lia.
      * eapply Forall_impl; [|exact H4]. cbn. intros; lia.
Qed.
(** The empty pattern *)
Lemma search_empty read : (forall a n, exists s, read a n = Ok s) -> forall fuel covered remaining, 0 <= remaining -> snd (search_loop read [] fuel covered remaining) = Err EDiverges.
Proof.
  intros Hr. induction fuel as [|fuel IH]; intros covered remaining H; cbn [search_loop].
  - change (zlen (@nil byte)) with 0. destruct (0 <=? remaining) eqn:E; zb; [reflexivity|lia].
  - change (zlen (@nil byte)) with 0. destruct (0 <=? remaining) eqn:E; zb; [|lia]. destruct (Hr covered (if buf_len [] <? remaining then buf_len [] else remaining)) as (s & ->).
    assert (find_sub [] s = Some O) as -> by (destruct s; reflexivity). specialize (IH (covered + (Z.of_nat 0 + 0)) (remaining - (Z.of_nat 0 + 0)) ltac:(lia)).
    destruct (search_loop read [] fuel _ _) as [found r]. exact IH.
Qed.
