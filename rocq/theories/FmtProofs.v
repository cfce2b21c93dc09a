(** * FmtProofs: proofs about the formats. *)
From Coq Require Import ZArith List Ascii String Bool Lia.
From Verif Require Import PyBase PyFacts PyIntFacts FmtModel FmtSpec FmtCode.
Import ListNotations.

Definition good st s args := format st s args = Ok tt.
Fixpoint need (qs : list (value -> Prop)) (K : list value -> Prop) (args : list value) : Prop :=
  match qs with
  | [] => K args
  | q :: qs => match args with v :: args => q v /\ need qs K args | [] => False end
  end.
Lemma need_app q1 : forall q2 K args, need (q1 ++ q2) K args <-> need q1 (need q2 K) args.
Proof. induction q1 as [|q q1 IH]; intros q2 K args; cbn; [reflexivity|]. destruct args; [reflexivity|]. now rewrite IH. Qed.
Lemma need_ext qs : forall K K', (forall a, K a <-> K' a) -> forall args, need qs K args <-> need qs K' args.
Proof. induction qs as [|q qs IH]; intros K K' H args; cbn; [apply H|]. destruct args; [reflexivity|]. now rewrite (IH K K' H). Qed.
Lemma need_all qs : forall args, need qs (fun a => a = []) args <-> Forall2 (fun (q : value -> Prop) v => q v) qs args.
Proof.
  induction qs as [|q qs IH]; intros args; cbn.
  - split; [intros ->; constructor|now inversion 1].
  - destruct args as [|v args]; [split; [tauto|now inversion 1]|]. rewrite IH. split; [intros [? ?]; now constructor|inversion 1; now split].
Qed.

Lemma one_of_In s c : one_of s c = true <-> In c (T s).
Proof.
  unfold one_of. rewrite existsb_exists. split; [intros (x & H & E); apply Ascii.eqb_eq in E; now subst|].
  intros H. exists c. split; [exact H|apply Ascii.eqb_refl].
Qed.

(** ** Characters *)
Ltac chars := apply forall_ascii; vm_compute; reflexivity.
Definition letters : string := "diouxXeEfFgGcrsa".
Lemma flag_act c : one_of "-+ #0" c = true -> action SFlags c = Go SFlags.
Proof. intros H. cbn [action]. unfold among_flags. now rewrite H. Qed.
Lemma begin_act c : one_of "%(" c = false -> action SBegin c = action SFlags c.
Proof. unfold one_of. cbn. destruct (Ascii.eqb c "%"), (Ascii.eqb c "("); cbn; congruence. Qed.
Lemma dec (P Q : ascii -> bool) : (forall c, implb (P c) (Q c) = true) -> forall c, P c = true -> Q c = true.
Proof. intros H c E. specialize (H c). rewrite E in H. exact H. Qed.
Definition act_is (a b : act) : bool :=
  match a, b with
  | Go s, Go t | Star s, Star t => match s, t with SText, SText | SBegin, SBegin | SFlags, SFlags | SWidth, SWidth | SWidthDone, SWidthDone | SPoint, SPoint | SPrec, SPrec | SPrecDone, SPrecDone | SDone, SDone => true | _, _ => false end
  | Key, Key | Letter, Letter => true
  | _, _ => false
  end.
Lemma act_is_eq a b : act_is a b = true -> a = b.
Proof. destruct a as [[]|[]| |], b as [[]|[]| |]; cbn; congruence. Qed.
Ltac by_char P H := apply act_is_eq; revert H; apply (dec P); chars.

Lemma digit_first c : is_digit c = true -> c <> "0"%char -> action SFlags c = Go SWidth.
Proof.
  intros H N. assert (is_digit c && negb (Ascii.eqb c "0") = true) as E by (rewrite H; destruct (Ascii.eqb_spec c "0"); [contradiction|reflexivity]).
  clear H N. apply act_is_eq. revert c E. apply (dec (fun c => is_digit c && negb (Ascii.eqb c "0")) (fun c => act_is (action SFlags c) (Go SWidth))). chars.
Qed.
Lemma digit_width c : is_digit c = true -> action SWidth c = Go SWidth.
Proof. intros H. cbn [action]. now rewrite H. Qed.
Lemma digit_point c : is_digit c = true -> action SPoint c = Go SPrec.
Proof. intros H. apply act_is_eq. revert c H. apply (dec is_digit (fun c => act_is (action SPoint c) (Go SPrec))). chars. Qed.
Lemma digit_prec c : is_digit c = true -> action SPrec c = Go SPrec.
Proof. intros H. cbn [action]. now rewrite H. Qed.
Lemma tail_width c : one_of ".hlLdiouxXeEfFgGcrsa" c = true -> action SFlags c = action SWidthDone c /\ action SWidth c = action SWidthDone c.
Proof.
  intros H. split; apply act_is_eq; revert c H; [apply (dec (one_of ".hlLdiouxXeEfFgGcrsa") (fun c => act_is (action SFlags c) (action SWidthDone c)))
  |apply (dec (one_of ".hlLdiouxXeEfFgGcrsa") (fun c => act_is (action SWidth c) (action SWidthDone c)))]; chars.
Qed.
Lemma tail_prec c : one_of "hlLdiouxXeEfFgGcrsa" c = true ->
  action SPoint c = action SPrecDone c /\ action SPrec c = action SPrecDone c /\ action SWidthDone c = action SPrecDone c.
Proof.
  intros H. split; [|split]; apply act_is_eq; revert c H; [apply (dec (one_of "hlLdiouxXeEfFgGcrsa") (fun c => act_is (action SPoint c) (action SPrecDone c)))
  |apply (dec (one_of "hlLdiouxXeEfFgGcrsa") (fun c => act_is (action SPrec c) (action SPrecDone c)))
  |apply (dec (one_of "hlLdiouxXeEfFgGcrsa") (fun c => act_is (action SWidthDone c) (action SPrecDone c)))]; chars.
Qed.
Lemma mod_act c : one_of "hlL" c = true -> action SPrecDone c = Go SDone.
Proof. intros H. cbn [action behind_prec]. unfold behind_prec. now rewrite H. Qed.
Lemma letter_act c : one_of letters c = true -> action SPrecDone c = Letter.
Proof. intros H. apply act_is_eq. revert c H. apply (dec (one_of letters) (fun c => act_is (action SPrecDone c) Letter)). chars. Qed.
Lemma sub_letters c : one_of letters c = true -> one_of "hlLdiouxXeEfFgGcrsa" c = true.
Proof. revert c. apply (dec (one_of letters) (one_of "hlLdiouxXeEfFgGcrsa")). chars. Qed.
Lemma sub_mod c : one_of "hlL" c = true -> one_of "hlLdiouxXeEfFgGcrsa" c = true.
Proof. revert c. apply (dec (one_of "hlL") (one_of "hlLdiouxXeEfFgGcrsa")). chars. Qed.
Lemma sub_tail c : one_of "hlLdiouxXeEfFgGcrsa" c = true -> one_of ".hlLdiouxXeEfFgGcrsa" c = true.
Proof. revert c. apply (dec (one_of "hlLdiouxXeEfFgGcrsa") (one_of ".hlLdiouxXeEfFgGcrsa")). chars. Qed.

(** ** Runs of characters *)
Lemma format_go st st' c s args : action st c = Go st' -> format st (c :: s) args = format st' s args.
Proof. intros H. cbn [format]. now rewrite H. Qed.
Lemma format_same st st' c s args : action st c = action st' c -> format st (c :: s) args = format st' (c :: s) args.
Proof. intros H. cbn [format]. now rewrite H. Qed.
Lemma flags_run f s args : Forall (fun c => In c (T "-+ #0")) f -> format SFlags (f ++ s) args = format SFlags s args.
Proof.
  induction 1 as [|c f H _ IH]; [reflexivity|]. cbn [app]. rewrite (format_go _ SFlags); [exact IH|]. apply flag_act, one_of_In, H.
Qed.
Lemma width_run d s args : Forall (fun c => is_digit c = true) d -> format SWidth (d ++ s) args = format SWidth s args.
Proof. induction 1 as [|c d H _ IH]; [reflexivity|]. cbn [app]. rewrite (format_go _ SWidth); [exact IH|]. now apply digit_width. Qed.
Lemma prec_run d s args : Forall (fun c => is_digit c = true) d -> format SPrec (d ++ s) args = format SPrec s args.
Proof. induction 1 as [|c d H _ IH]; [reflexivity|]. cbn [app]. rewrite (format_go _ SPrec); [exact IH|]. now apply digit_prec. Qed.

Lemma star_good st st' s args : action st "*" = Star st' -> good st ("*"%char :: s) args <-> need [is_int] (good st' s) args.
Proof.
  intros H. unfold good at 1. cbn [format]. rewrite H. cbn [need]. unfold is_int. destruct args as [|[] args]; cbn; split; intros X; try discriminate; try tauto;
    try (destruct X; discriminate).
Qed.

(** Letter of a conversion *)
Lemma accepts_ok l v : one_of letters l = true -> (accepts l v = Ok tt <-> takes l v).
Proof.
  intros H. unfold letters in H. apply one_of_In in H. unfold takes.
  cbn in H.
  repeat (destruct H as [<-|H]); [..|destruct H].
  all: destruct v; cbn; split; intros X; try reflexivity; try discriminate; try tauto; try (intuition discriminate).
Qed.
Lemma letter_good st l s args : action st l = Letter -> one_of letters l = true ->
  (good st (l :: s) args <-> need [takes l] (good SText s) args).
Proof.
  intros A L. unfold good at 1. cbn [format]. rewrite A.
  cbn [need]. destruct args as [|v args]; [split; [discriminate|tauto]|]. rewrite <- (accepts_ok l v L).
  destruct (accepts l v) as [[]|e]; cbn [bind]; unfold good; [tauto|]. split; [discriminate|intros [X _]; discriminate].
Qed.

(** Length modifier and letter *)
Definition end_text (m : option ascii) (l : ascii) (s : text) : text := opt (fun a => [a]) m ++ [l] ++ s.
Lemma end_head m l s : match m with Some m => In m (T "hlL") | None => True end -> one_of letters l = true ->
  exists c t, end_text m l s = c :: t /\ one_of "hlLdiouxXeEfFgGcrsa" c = true.
Proof.
  intros M L. destruct m as [m|]; cbn [end_text opt app].
  - exists m, (l :: s). split; [reflexivity|]. apply sub_mod, one_of_In, M.
  - exists l, s. split; [reflexivity|]. now apply sub_letters.
Qed.
Lemma end_good m l s args : match m with Some m => In m (T "hlL") | None => True end -> one_of letters l = true ->
  (good SPrecDone (end_text m l s) args <-> need [takes l] (good SText s) args).
Proof.
  intros M L. destruct m as [m|]; cbn [end_text opt app].
  - unfold good at 1. rewrite (format_go _ SDone) by (apply mod_act, one_of_In, M). apply (letter_good SDone); [reflexivity|exact L].
  - apply letter_good; [now apply letter_act|exact L].
Qed.
(** The precision *)
Definition prec_text (p : option number) (t : text) : text := opt (fun n => T "." ++ number_text n) p ++ t.
Lemma prec_good p t c t' args : match p with Some n => wf_prec n | None => True end -> t = c :: t' -> one_of "hlLdiouxXeEfFgGcrsa" c = true ->
  (good SWidthDone (prec_text p t) args <-> need (star p) (good SPrecDone t) args).
Proof.
  intros W Et Hc. destruct (tail_prec c Hc) as (A1 & A2 & A3). unfold prec_text. destruct p as [[d|]|].
  - unfold good. cbn [opt number_text star need]. cbn [T list_ascii_of_string app]. rewrite (format_go _ SPoint) by reflexivity.
    cbn [wf_prec] in W. destruct W as [|x d X W]; cbn [app].
    + rewrite Et, (format_same SPoint SPrecDone) by exact A1. reflexivity.
    + rewrite (format_go _ SPrec) by (now apply digit_point). rewrite prec_run by exact W. rewrite Et, (format_same SPrec SPrecDone) by exact A2. reflexivity.
  - cbn [opt number_text star]. unfold good at 1. cbn [T list_ascii_of_string app]. rewrite (format_go _ SPoint) by reflexivity. now apply star_good.
  - cbn [opt star need app]. unfold good. rewrite Et, (format_same SWidthDone SPrecDone) by exact A3. reflexivity.
Qed.
Lemma prec_head p t c t' : t = c :: t' -> one_of "hlLdiouxXeEfFgGcrsa" c = true -> exists c t', prec_text p t = c :: t' /\ one_of ".hlLdiouxXeEfFgGcrsa" c = true.
Proof.
  intros Et Hc. unfold prec_text. destruct p as [n|]; cbn [opt app].
  - exists "."%char, (number_text n ++ t). split; reflexivity.
  - exists c, t'. split; [exact Et|now apply sub_tail].
Qed.
Lemma width_good w t c t' args : match w with Some n => wf_width n | None => True end -> t = c :: t' -> one_of ".hlLdiouxXeEfFgGcrsa" c = true ->
  (good SFlags (opt number_text w ++ t) args <-> need (star w) (good SWidthDone t) args).
Proof.
  intros W Et Hc. destruct (tail_width c Hc) as [A1 A2]. destruct w as [[d|]|].
  - cbn [opt number_text star need]. unfold good. cbn [wf_width] in W. destruct W as [(x & d' & -> & N) W]. inversion W as [|? ? X W']; subst. cbn [app].
    rewrite (format_go _ SWidth) by (now apply digit_first). rewrite width_run by exact W'. rewrite (format_same SWidth SWidthDone) by exact A2. reflexivity.
  - cbn [opt number_text star app T list_ascii_of_string]. now apply star_good.
  - cbn [opt star need app]. unfold good. rewrite Et, (format_same SFlags SWidthDone) by exact A1. reflexivity.
Qed.
Lemma begin_flags s args : match s with c :: _ => one_of "%(" c = false | [] => True end -> format SBegin s args = format SFlags s args.
Proof. destruct s as [|c s]; intros H; [reflexivity|]. apply format_same, begin_act, H. Qed.
Lemma first_char f w t c t' : Forall (fun c => In c (T "-+ #0")) f -> match w with Some n => wf_width n | None => True end -> t = c :: t' ->
  one_of ".hlLdiouxXeEfFgGcrsa" c = true -> match f ++ opt number_text w ++ t with c :: _ => one_of "%(" c = false | [] => True end.
Proof.
  intros F W Et Hc. destruct F as [|x f X _]; cbn [app].
  - destruct w as [[d|]|]; cbn [opt number_text].
    + destruct W as [(y & d' & -> & _) W]. inversion W as [|? ? Y _]; subst. cbn [app]. apply negb_true_iff. clear W. revert y Y. apply (dec is_digit (fun c => negb (one_of "%(" c))). chars.
    + reflexivity.
    + cbn [app]. rewrite Et. apply negb_true_iff. clear Et. revert c Hc. apply (dec (one_of ".hlLdiouxXeEfFgGcrsa") (fun c => negb (one_of "%(" c))). chars.
  - apply one_of_In in X. apply negb_true_iff. revert x X. apply (dec (one_of "-+ #0") (fun c => negb (one_of "%(" c))). chars.
Qed.
Lemma conv_good c s args : wf_conv c -> (good SText (conv_text c ++ s) args <-> need (wants (Conv c)) (good SText s) args).
Proof.
  intros (F & W & P & M & L). change (T "diouxXeEfFgGcrsa") with (T letters) in L. apply one_of_In in L. destruct c as [fl w p m l]. cbn [flags width prec modifier letter] in *.
  assert (conv_text {| flags := fl; width := w; prec := p; modifier := m; letter := l |} ++ s
          = "%"%char :: fl ++ opt number_text w ++ prec_text p (end_text m l s)) as ->.
  { unfold conv_text, prec_text, end_text. cbn [flags width prec modifier letter T list_ascii_of_string]. repeat rewrite <- app_assoc. reflexivity. }
  unfold good at 1. rewrite (format_go _ SBegin) by reflexivity.
  destruct (end_head m l s M L) as (c1 & t1 & E1 & H1). destruct (prec_head p _ _ _ E1 H1) as (c2 & t2 & E2 & H2).
  rewrite begin_flags.
  2: { exact (first_char fl w _ c2 t2 F W E2 H2). }
  rewrite flags_run by exact F. cbn [wants width prec letter]. rewrite need_app. etransitivity; [exact (width_good w _ c2 t2 args W E2 H2)|]. apply need_ext. intros a. rewrite need_app.
  etransitivity; [exact (prec_good p _ c1 t1 a P E1 H1)|]. apply need_ext. intros b. now apply end_good.
Qed.
Lemma pieces_good ps : Forall wf ps -> forall args, good SText (flat_map piece_text ps) args <-> need (flat_map wants ps) (fun a => a = []) args.
Proof.
  induction 1 as [|p ps W _ IH]; intros args; cbn [flat_map].
  - cbn [need]. unfold good. cbn [format]. destruct args; split; congruence.
  - rewrite need_app. destruct p as [c| |c]; cbn [piece_text wants need].
    + cbn [app]. unfold good. rewrite (format_go _ SText); [apply IH|]. cbn [action]. destruct (Ascii.eqb_spec c "%") as [E|]; [cbn [wf] in W; contradiction|reflexivity].
    + unfold good. cbn [T list_ascii_of_string app]. rewrite (format_go _ SBegin) by reflexivity. rewrite (format_go _ SText) by reflexivity. apply IH.
    + rewrite (conv_good c _ args W). apply need_ext, IH.
Qed.
Lemma pieces_then ps s : Forall wf ps -> forall args, good SText (flat_map piece_text ps ++ s) args <-> need (flat_map wants ps) (good SText s) args.
Proof.
  induction 1 as [|p ps W _ IH]; intros args; cbn [flat_map]; [reflexivity|].
  rewrite need_app, <- app_assoc. destruct p as [c| |c]; cbn [piece_text wants need].
  - cbn [app]. unfold good at 1. rewrite (format_go _ SText); [apply IH|]. cbn [action]. destruct (Ascii.eqb_spec c "%") as [E|]; [cbn [wf] in W; contradiction|reflexivity].
  - unfold good at 1. cbn [T list_ascii_of_string app]. rewrite (format_go _ SBegin) by reflexivity. rewrite (format_go _ SText) by reflexivity. apply IH.
  - rewrite (conv_good c _ args W). apply need_ext, IH.
Qed.
Lemma need_none qs : forall args, ~ need qs (fun _ => False) args.
Proof. induction qs as [|q qs IH]; intros args; cbn; [tauto|]. destruct args; [tauto|]. intros [_ H]. exact (IH _ H). Qed.
Lemma bad_letter c : ~ In c (T "-+ #0123456789.*hlLdiouxXeEfFgGcrsa%(") -> forall v, action SBegin c = Letter /\ accepts c v = Err EValueError.
Proof.
  intros H v. rewrite <- one_of_In in H. apply not_true_is_false, negb_true_iff in H. split.
  - apply act_is_eq. revert c H. apply (dec (fun c => negb (one_of "-+ #0123456789.*hlLdiouxXeEfFgGcrsa%(" c)) (fun c => act_is (action SBegin c) Letter)). chars.
  - assert (match accepts c v with Err EValueError => true | _ => false end = true) as K.
    { revert c H. destruct v; (apply (dec (fun c => negb (one_of "-+ #0123456789.*hlLdiouxXeEfFgGcrsa%(" c))); chars). }
    destruct (accepts c v) as [|[]]; congruence.
Qed.
Lemma percent_bad ps c rest o : Forall wf ps -> ~ In c (T "-+ #0123456789.*hlLdiouxXeEfFgGcrsa%") -> percent (flat_map piece_text ps ++ "%"%char :: c :: rest) o <> Ok tt.
Proof.
  intros W N H. apply (pieces_then ps _ W) in H.
  refine (need_none (flat_map wants ps) (items o) (proj1 (need_ext _ _ _ _ _) H)). intros a. split; [|tauto]. unfold good. rewrite (format_go _ SBegin) by reflexivity.
  destruct (Ascii.eqb_spec c "(") as [->|M]; [discriminate|]. assert (~ In c (T "-+ #0123456789.*hlLdiouxXeEfFgGcrsa%(")) as N'.
  { intros I. change (T "-+ #0123456789.*hlLdiouxXeEfFgGcrsa%(") with (T "-+ #0123456789.*hlLdiouxXeEfFgGcrsa%" ++ ["("%char]) in I. apply in_app_or in I. destruct I as [I|[I|[]]]; [contradiction|congruence]. }
  cbn [format]. destruct (bad_letter c N' VInt) as [-> _]. destruct a as [|v a]; [discriminate|]. destruct (bad_letter c N' v) as [_ ->]. discriminate.
Qed.
Lemma percent_right ps o : Forall wf ps -> (percent (flat_map piece_text ps) o = Ok tt <-> right_args ps (items o)).
Proof. intros W. unfold right_args. rewrite <- need_all. exact (pieces_good ps W (items o)). Qed.

(** ** The formats of the project *)
Definition least (k : known) : value := match k with Any => VOther | Int => VInt end.
Lemma accepts_mono c k v : accepts c (least k) = Ok tt -> fits k v -> accepts c v = Ok tt.
Proof.
  unfold accepts. destruct (one_of "sra" c); [reflexivity|]. destruct k; cbn [least fits]; [|now intros H ->].
  destruct (one_of "diu" c), (one_of "oxX" c), (one_of "eEfFgG" c), (one_of "c" c); discriminate.
Qed.
Lemma format_mono s : forall st ks vs, format st s (map least ks) = Ok tt -> Forall2 fits ks vs -> format st s vs = Ok tt.
Proof.
  induction s as [|c s IH]; intros st ks vs H F; cbn [format] in *.
  - destruct F; [exact H|]. destruct st; discriminate.
  - destruct (action st c) as [st'|st'| |]; [now apply (IH _ ks)| |exact H|].
    + destruct F as [|k v ks vs X F]; [discriminate|]. cbn [map] in H. destruct k; cbn [least] in H; [discriminate|]. cbn [fits] in X. subst v. now apply (IH _ ks).
    + destruct F as [|k v ks vs X F]; [discriminate|]. cbn [map] in H.
      destruct (accepts c (least k)) as [[]|] eqn:E; [|discriminate]. rewrite (accepts_mono c k v E X). cbn [bind] in *. now apply (IH _ ks).
Qed.
Definition use_ok (u : use) : bool := is_ok (format SText (u_format u) (map least (u_args u))).
Lemma uses_checked : forallb use_ok formats = true.
Proof. vm_compute. reflexivity. Qed.
Lemma format_use u : In u formats -> forall o, Forall2 fits (u_args u) (items o) -> percent (u_format u) o = Ok tt.
Proof.
  intros H o F. assert (use_ok u = true) as E by (exact (proj1 (forallb_forall _ _) uses_checked u H)). unfold use_ok in E.
  unfold percent. destruct (format SText (u_format u) (map least (u_args u))) as [[]|] eqn:X; [|discriminate]. exact (format_mono _ _ _ _ X F).
Qed.
(** Fewer or more arguments are an error *)
Lemma args_length s : forall st vs ws, format st s vs = Ok tt -> List.length ws <> List.length vs -> format st s ws <> Ok tt.
Proof.
  induction s as [|c s IH]; intros st vs ws H N; cbn [format] in *.
  - destruct st; try discriminate. destruct vs; [|discriminate]. destruct ws; [contradiction|discriminate].
  - destruct (action st c) as [st'|st'| |]; [now apply (IH _ vs)| |discriminate|].
    + destruct vs as [|[] vs]; try discriminate. destruct ws as [|[] ws]; try discriminate. apply (IH _ vs); [exact H|]. cbn in N. congruence.
    + destruct vs as [|v vs]; [discriminate|]. destruct (accepts c v) as [[]|]; [|discriminate]. cbn [bind] in H.
      destruct ws as [|w ws]; [discriminate|]. destruct (accepts c w) as [[]|]; [|discriminate]. cbn [bind]. apply (IH _ vs); [exact H|]. cbn in N. congruence.
Qed.
Lemma least_fits ks : Forall2 fits ks (map least ks).
Proof. induction ks as [|k ks IH]; cbn [map]; constructor; [destruct k; reflexivity || exact I|exact IH]. Qed.
Lemma format_length u : In u formats -> forall o, percent (u_format u) o = Ok tt -> List.length (items o) = List.length (u_args u).
Proof.
  intros H o E. assert (percent (u_format u) (Tuple (map least (u_args u))) = Ok tt) as X by (apply (format_use u H); cbn [items]; apply least_fits).
  destruct (Nat.eq_dec (List.length (items o)) (List.length (u_args u))) as [|N]; [assumption|]. exfalso. refine (args_length _ _ _ (items o) X _ E).
  cbn [items]. rewrite map_length. exact N.
Qed.
Definition single (u : use) : bool := u_tuple u || Nat.eqb (List.length (u_args u)) 1.
Lemma singles_checked : forallb single formats = true.
Proof. vm_compute. reflexivity. Qed.
Lemma format_single u : In u formats -> u_tuple u = false -> exists k, u_args u = [k].
Proof.
  intros H T. assert (single u = true) as E by (exact (proj1 (forallb_forall _ _) singles_checked u H)). unfold single in E. rewrite T in E. cbn [orb] in E.
  destruct (u_args u) as [|k [|? ?]]; try discriminate. now exists k.
Qed.
(** A tuple where one value is meant *)
Lemma format_spread u l : In u formats -> u_tuple u = false -> (List.length l <> 1)%nat -> percent (u_format u) (Tuple l) <> Ok tt.
Proof. intros H T N E. destruct (format_single u H T) as [k K]. apply (format_length u H) in E. rewrite K in E. exact (N E). Qed.

(** ptrace/tools.py *)
Lemma no_flag_digits n args s : (0 <= n)%Z -> format SFlags (digits 10 n ++ s) args = format SFlags s args \/ format SFlags (digits 10 n ++ s) args = format SWidth s args.
Proof.
  intros H. pose proof (digits10_is n H) as D. revert D. generalize (digits 10 n). intros d D. induction D as [|c d X D IH]; [now left|]. cbn [app].
  destruct (Ascii.eqb_spec c "0") as [->|N].
  - rewrite (format_go _ SFlags) by reflexivity. exact IH.
  - rewrite (format_go _ SWidth) by (now apply digit_first). right. now apply width_run.
Qed.
Lemma dump_format n v : (0 <= n)%Z -> percent (T "%% %us") (One VInt) = Ok tt /\ percent (name_format n) (One v) = Ok tt.
Proof.
  intros H. split; [reflexivity|]. unfold percent, name_format. cbn [items T list_ascii_of_string app]. rewrite (format_go _ SBegin) by reflexivity. rewrite (format_go _ SFlags) by reflexivity.
  destruct (no_flag_digits n [v] ["s"%char] H) as [-> | ->]; reflexivity.
Qed.
(** ptrace/process_tools.py *)
Lemma split1_in c s : split1 c s <> None <-> In c s.
Proof.
  induction s as [|x s IH]; cbn [split1]; [split; [congruence|intros []]|]. destruct (Ascii.eqb_spec x c) as [->|N].
  - split; [now left|discriminate].
  - destruct (split1 c s) as [[a b]|].
    + split; [intros _; right; apply IH; discriminate|discriminate].
    + split; [congruence|]. intros [->|I]; [contradiction|]. apply IH in I. congruence.
Qed.
Lemma env_ok item : env_format item = Ok tt <-> In "="%char item.
Proof. rewrite <- split1_in. unfold env_format. destruct (split1 "=" item) as [p|]; cbn; split; congruence. Qed.
