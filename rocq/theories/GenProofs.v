(** * GenProofs: facts about the generator of the prototypes *)
From Coq Require Import ZArith List Ascii String Bool Lia Sorted.
From Verif Require Import PyBase PyFacts GenModel GenSpec.
Import ListNotations.
Open Scope Z_scope.

Lemma sw_sep p a c b : ~ In c p -> starts_with p (a ++ c :: b) = starts_with p a.
Proof.
  revert a. induction p as [|x p IH]; intros a H; [destruct a; reflexivity|].
  destruct a as [|y a]; cbn.
  - destruct (Ascii.eqb x c) eqn:E; [|reflexivity]. apply Ascii.eqb_eq in E. subst. destruct H. now left.
  - rewrite IH; [reflexivity|]. intros H1. apply H. now right.
Qed.

Lemma sw_len p s : starts_with p s = true -> (List.length p <= List.length s)%nat.
Proof. intros H. apply starts_with_spec in H as [r ->]. rewrite app_length. lia. Qed.

(** ** Removal of a word *)
Lemma remove_sep p c b : p <> [] -> ~ In c p -> forall a k, (k <= List.length a)%nat ->
  remove_sub p k (a ++ c :: b) = remove_sub p k a ++ c :: remove_sub p 0 b.
Proof.
  intros Hp H a. induction a as [|x a IH]; intros k Hk.
  - cbn in Hk. assert (k = O) by lia. subst k. cbn [app remove_sub].
    change (c :: b) with ([] ++ c :: b). rewrite (sw_sep p [] c b H).
    destruct p as [|y p]; [congruence|reflexivity].
  - cbn [app remove_sub]. destruct k as [|k]; [|apply IH; cbn in Hk; lia].
    change (x :: a ++ c :: b) with ((x :: a) ++ c :: b). rewrite (sw_sep p (x :: a) c b H).
    destruct (starts_with p (x :: a)) eqn:E.
    + apply IH. apply sw_len in E. cbn in E. lia.
    + rewrite IH by lia. reflexivity.
Qed.

Lemma remove_none p s : contains p s = false -> remove_sub p 0 s = s.
Proof.
  unfold contains. induction s as [|c s IH]; intros H; [reflexivity|].
  cbn [find_sub] in H. cbn [remove_sub]. destruct (starts_with p (c :: s)); [discriminate|].
  rewrite IH; [reflexivity|]. destruct (find_sub p s); [discriminate|reflexivity].
Qed.

Lemma user_ne : T "__user" <> [].
Proof. discriminate. Qed.
Lemma white_not_user w c : white w -> In c w -> ~ In c (T "__user").
Proof.
  intros H Hc Hin. apply H in Hc. cbn in Hin.
  repeat (destruct Hin as [<-|Hin]; [vm_compute in Hc; discriminate|]). destruct Hin.
Qed.
Lemma comma_not_user : ~ In ","%char (T "__user").
Proof. cbn. intros H. repeat (destruct H as [H|H]; [discriminate|]). destruct H. Qed.

Lemma remove_white w s : white w -> remove_sub (T "__user") 0 (w ++ s) = w ++ remove_sub (T "__user") 0 s.
Proof.
  induction w as [|c w IH]; intros H; [reflexivity|]. cbn [app].
  assert (~ In c (T "__user")) as H0 by (apply (white_not_user (c :: w)); [exact H|now left]).
  rewrite <- IH by (intros x Hx; apply H; now right).
  exact (remove_sep _ _ (w ++ s) user_ne H0 [] O (le_n _)).
Qed.

(** After a word comes white space or the end. *)
Definition bounded (s : text) : Prop := match s with [] => True | c :: _ => is_space c = true end.

Lemma remove_word_bounded t s : bounded s ->
  remove_sub (T "__user") 0 (t ++ s) = remove_sub (T "__user") 0 t ++ remove_sub (T "__user") 0 s.
Proof.
  intros H. destruct s as [|c s]; [rewrite !app_nil_r; reflexivity|].
  rewrite remove_sep; [|discriminate| |lia].
  - f_equal. change (c :: s) with ([c] ++ s). rewrite remove_white; [reflexivity|].
    intros x [<-|[]]. exact H.
  - apply (white_not_user [c]); [|now left]. intros x [<-|[]]. exact H.
Qed.

(** ** White space brought to single spaces *)
Fixpoint nrm (started pending : bool) (s : text) : text :=
  match s with
  | [] => []
  | c :: s =>
      if is_space c then nrm started started s
      else (if pending then [" "%char] else []) ++ c :: nrm true false s
  end.

Lemma join_cons sep x l : join sep (x :: l) = x ++ match l with [] => [] | _ => sep ++ join sep l end.
Proof. destruct l; cbn; [now rewrite app_nil_r|reflexivity]. Qed.

Lemma split_nrm s : forall cur,
  join (T " ") (split_ws_aux s cur) = match cur with [] => nrm false false s | _ => rev cur ++ nrm true false s end
  /\ (split_ws_aux s [] = [] <-> nrm false false s = [])
  /\ nrm true true s = match nrm false false s with [] => [] | t => " "%char :: t end.
Proof.
  induction s as [|c s IH]; intros cur.
  { destruct cur; cbn; [repeat split; reflexivity|]. rewrite app_nil_r. repeat split; reflexivity. }
  cbn [split_ws_aux nrm]. destruct (is_space c) eqn:E.
  - destruct (IH []) as [H1 [H2 H3]]. split; [|split].
    + destruct cur as [|x cur]; [exact H1|]. rewrite join_cons. f_equal. rewrite H3. cbv beta iota in H1.
      destruct (split_ws_aux s []) as [|y l] eqn:E2.
      * destruct H2 as [H2 _]. rewrite H2; reflexivity.
      * assert (nrm false false s <> []) as N by (intros H4; apply H2 in H4; discriminate).
        rewrite H1. destruct (nrm false false s); [congruence|reflexivity].
    + exact H2.
    + exact H3.
  - destruct (IH [c]) as [H1 [H2 H3]]. split; [|split].
    + destruct (IH (c :: cur)) as [H4 _]. cbn [rev] in H4.
      destruct cur; rewrite H4; [reflexivity|]. cbn. rewrite <- !app_assoc. reflexivity.
    + cbn. split; intros H; [|discriminate]. exfalso. destruct (IH [c]) as [H5 _]. rewrite H in H5. discriminate.
    + reflexivity.
Qed.

Lemma norm_nrm s : join (T " ") (split_ws s) = nrm false false s.
Proof. exact (proj1 (split_nrm s [])). Qed.

Lemma nrm_white st pd w s : white w -> nrm st pd (w ++ s) = nrm st (match w with [] => pd | _ => st end) s.
Proof.
  revert pd. induction w as [|c w IH]; intros pd H; [reflexivity|]. cbn [app nrm].
  rewrite (H c) by now left. rewrite IH by (intros x Hx; apply H; now right). destruct w; reflexivity.
Qed.

Lemma nrm_word st pd t s : t <> [] -> (forall c, In c t -> is_space c = false) ->
  nrm st pd (t ++ s) = (if pd then [" "%char] else []) ++ t ++ nrm true false s.
Proof.
  intros Ht. revert st pd. induction t as [|c t IH]; intros st pd H; [congruence|]. cbn [app nrm].
  rewrite (H c) by now left. f_equal. f_equal.
  destruct t as [|c' t]; [reflexivity|]. rewrite IH; [reflexivity|discriminate|intros x Hx; apply H; now right].
Qed.

(** ** A written parameter *)
Definition users (ts : list text) := filter (fun t => negb (text_eqb t (T "__user"))) ts.
Definition body (ws ts : list text) : text := List.concat (map (fun x => fst x ++ snd x) (combine ws ts)).

Lemma body_bounded ws ts : List.length ws = List.length ts -> Forall white ws -> Forall (fun w => w <> []) ws -> bounded (body ws ts).
Proof.
  destruct ws as [|w ws], ts as [|t ts]; intros HL HW HN; try discriminate; [exact I|].
  inversion HW; inversion HN; subst. unfold body. cbn. destruct w as [|c w]; [congruence|]. cbn. apply H1. now left.
Qed.

Definition clean (t : text) : Prop := t = T "__user" \/ (word t /\ contains (T "__user") t = false).

Lemma remove_word t : clean t ->
  remove_sub (T "__user") 0 t = if text_eqb t (T "__user") then [] else t.
Proof.
  intros [->|[_ H]]; [reflexivity|]. rewrite remove_none by exact H.
  destruct (text_eqb t (T "__user")) eqn:E; [|reflexivity]. apply text_eqb_eq in E. subst. vm_compute in H. discriminate.
Qed.

(** The words that remain, each after one space (the first one perhaps not). *)
Fixpoint trailing (pd : bool) (ts : list text) (rest : text) : text :=
  match ts with
  | [] => rest
  | t :: ts => (if pd then [" "%char] else []) ++ t ++ trailing true ts rest
  end.

Lemma trailing_join pd ts r : ts <> [] -> trailing pd ts r = (if pd then [" "%char] else []) ++ join (T " ") ts ++ r.
Proof.
  revert pd. induction ts as [|t ts IH]; intros pd H; [congruence|]. cbn [trailing]. rewrite join_cons.
  f_equal. rewrite <- app_assoc. f_equal. destruct ts as [|t' ts]; [reflexivity|].
  rewrite IH by discriminate. cbn. reflexivity.
Qed.

Lemma body_cons w ws t ts : body (w :: ws) (t :: ts) = w ++ t ++ body ws ts.
Proof. unfold body. cbn. rewrite <- app_assoc. reflexivity. Qed.

Lemma remove_body w t ws ts : white w -> clean t -> List.length ws = List.length ts -> Forall white ws -> Forall (fun w => w <> []) ws ->
  remove_sub (T "__user") 0 (body (w :: ws) (t :: ts)) = w ++ (if text_eqb t (T "__user") then [] else t) ++ remove_sub (T "__user") 0 (body ws ts).
Proof.
  intros Hw Ht HL HW HN. rewrite body_cons, remove_white by exact Hw.
  rewrite remove_word_bounded by (apply body_bounded; assumption). rewrite remove_word by exact Ht. reflexivity.
Qed.

Lemma clean_nonspace t : clean t -> t <> [] /\ forall c, In c t -> is_space c = false.
Proof.
  intros [->|[[H1 H2] _]]; [|split; [exact H1|intros c Hc; apply (H2 c Hc)]].
  split; [discriminate|]. cbn. intros c H. repeat (destruct H as [<-|H]; [reflexivity|]). destruct H.
Qed.

Lemma nrm_body r : forall ts ws st pd, ts <> [] -> List.length ws = List.length ts -> Forall white ws -> Forall (fun w => w <> []) ws ->
  Forall clean ts -> last ts [] <> T "__user" ->
  nrm st pd (remove_sub (T "__user") 0 (body ws ts) ++ r) = trailing st (users ts) (nrm true false r).
Proof.
  induction ts as [|t ts IH]; intros ws st pd Hn HL HW HN HC HE; [congruence|].
  destruct ws as [|w ws]; [discriminate|]. inversion HW as [|? ? Hw HW2]; inversion HN as [|? ? Hw2 HN2]; inversion HC as [|? ? Ht HC2]; subst.
  injection HL as HL. rewrite remove_body by assumption. rewrite <- !app_assoc.
  rewrite nrm_white by exact Hw. destruct w as [|c w]; [congruence|]. cbv iota.
  cbn [users filter]. fold users. destruct (text_eqb t (T "__user")) eqn:E; cbn [negb].
  - cbn [app]. destruct ts as [|t2 ts]; [apply text_eqb_eq in E; subst; cbn in HE; congruence|].
    apply IH; try assumption. discriminate.
  - destruct (clean_nonspace t Ht) as [H1 H2]. rewrite nrm_word by assumption. cbn [trailing]. f_equal. f_equal.
    destruct ts as [|t2 ts]; [destruct ws; [reflexivity|discriminate]|].
    apply IH; try assumption. discriminate.
Qed.

Lemma nrm_spaced ts s st r : ts <> [] -> spaced ts s -> Forall clean ts -> last ts [] <> T "__user" ->
  exists b, (st = false -> b = false) /\
  nrm st false (remove_sub (T "__user") 0 s ++ r) = trailing b (users ts) (nrm true false r).
Proof.
  intros Hn [ws [HL [HW [HN ->]]]] HC HE. fold (body ws ts).
  destruct ts as [|t ts]; [congruence|]. destruct ws as [|w ws]; [discriminate|].
  inversion HW as [|? ? Hw HW2]; inversion HC as [|? ? Ht HC2]; subst. cbn [tl] in HN. injection HL as HL.
  rewrite remove_body by assumption. rewrite <- !app_assoc. rewrite nrm_white by exact Hw.
  exists (if text_eqb t (T "__user") then st else match w with [] => false | _ => st end).
  split; [intros ->; destruct (text_eqb t (T "__user")), w; reflexivity|].
  cbn [users filter]. fold users. destruct (text_eqb t (T "__user")) eqn:E; cbn [negb].
  - cbn [app]. destruct ts as [|t2 ts]; [apply text_eqb_eq in E; subst; cbn in HE; congruence|].
    apply nrm_body; try assumption. discriminate.
  - destruct (clean_nonspace t Ht) as [H1 H2]. rewrite nrm_word by assumption. cbn [trailing]. f_equal. f_equal.
    destruct ts as [|t2 ts]; [destruct ws; [reflexivity|discriminate]|].
    apply nrm_body; try assumption. discriminate.
Qed.

(** ** The list of the parameters *)
Definition blank (b : bool) : text := if b then [" "%char] else [].

Lemma comma_nospace s : nrm true false (","%char :: s) = ","%char :: nrm true false s.
Proof. reflexivity. Qed.

Lemma join_app1 sep x l : l <> [] -> join sep (x :: l) = x ++ sep ++ join sep l.
Proof. destruct l; [congruence|reflexivity]. Qed.

Lemma remove_join args : remove_sub (T "__user") 0 (join (T ",") args) = join (T ",") (map (remove_sub (T "__user") 0) args).
Proof.
  induction args as [|a args IH]; [reflexivity|]. destruct args as [|a2 args]; [reflexivity|].
  rewrite (join_app1 _ a (a2 :: args)) by discriminate. cbn [map].
  change (remove_sub (T "__user") 0 a2 :: map (remove_sub (T "__user") 0) args) with (map (remove_sub (T "__user") 0) (a2 :: args)).
  rewrite (join_app1 _ (remove_sub (T "__user") 0 a)) by discriminate. change (T "," ++ join (T ",") (a2 :: args)) with (","%char :: join (T ",") (a2 :: args)).
  rewrite remove_sep; [|discriminate|exact comma_not_user|lia]. f_equal. rewrite IH. reflexivity.
Qed.

Definition written (ts : list text) (a : text) : Prop :=
  spaced ts a /\ Forall clean ts /\ last ts [] <> T "__user" /\ users ts <> [].

Lemma nrm_args : forall tss args st, args <> [] -> Forall2 written tss args ->
  exists bs, List.length bs = List.length tss /\ (st = false -> hd false bs = false) /\
  nrm st false (join (T ",") (map (remove_sub (T "__user") 0) args))
  = join (T ",") (map (fun x => blank (fst x) ++ join (T " ") (users (snd x))) (combine bs tss)).
Proof.
  induction tss as [|ts tss IH]; intros args st Hn H; inversion H as [|? a ? args' [Hs [Hc [Hl Hu]]] H2]; subst; [congruence|].
  assert (ts <> []) as Ht by (intros ->; apply Hu; reflexivity).
  destruct args' as [|a2 args'].
  - inversion H2; subst. destruct (nrm_spaced ts a st [] Ht Hs Hc Hl) as [b [Hb E]]. exists [b].
    split; [reflexivity|split; [exact Hb|]]. cbn [map join combine fst snd]. rewrite app_nil_r in E. rewrite E.
    rewrite trailing_join by exact Hu. cbn [nrm]. rewrite app_nil_r. reflexivity.
  - destruct (IH (a2 :: args') true ltac:(discriminate) H2) as [bs [HL [_ E2]]].
    destruct (nrm_spaced ts a st (T "," ++ join (T ",") (map (remove_sub (T "__user") 0) (a2 :: args'))) Ht Hs Hc Hl) as [b [Hb E]].
    exists (b :: bs). split; [cbn [List.length]; now rewrite HL|split; [exact Hb|]].
    cbn [map]. rewrite join_app1 by discriminate. change (remove_sub (T "__user") 0 a2 :: map (remove_sub (T "__user") 0) args') with (map (remove_sub (T "__user") 0) (a2 :: args')).
    rewrite E, trailing_join by exact Hu.
    cbn [combine map fst snd]. rewrite (join_app1 (T ",") (blank b ++ join (T " ") (users ts))).
    2: { destruct tss as [|ts2 tss]; [inversion H2|]. destruct bs; [discriminate HL|discriminate]. }
    rewrite <- app_assoc. fold (blank b). f_equal. f_equal. cbn [T list_ascii_of_string app]. rewrite comma_nospace. f_equal. exact E2.
Qed.
