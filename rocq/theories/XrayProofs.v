(** * XrayProofs: proofs about followed terms, xray, gcore and the help. *)
From Coq Require Import ZArith List Ascii String Bool Lia.
From Verif Require Import PyBase PyFacts Platform IntModel IntProofs RegexModel RegexFacts MapModel MapSpec MapProofs MapProofs2 ArgModel XrayModel XraySpec.
Import ListNotations.
Open Scope Z_scope.

(** ** Terms *)
Lemma literal_char q c rest : q = "'"%char \/ q = z2b 34 -> literal q (repr_char q c ++ rest) = lit_cons c (literal q rest).
Proof. intros [->| ->]; destruct c as [[] [] [] [] [] [] [] []]; reflexivity. Qed.
Lemma literal_repr q s : q = "'"%char \/ q = z2b 34 -> literal q (List.concat (map (repr_char q) s) ++ [q]) = Some (Ok s).
Proof.
  intros Hq. induction s as [|c s IH]; cbn [map List.concat app]; [destruct Hq as [->| ->]; reflexivity|]. rewrite <- app_assoc, literal_char by exact Hq. now rewrite IH.
Qed.
Lemma follow_repr eval s : parseBytes eval (skipn 1 (repr_bytes s)) = Ok s.
Proof.
  unfold repr_bytes. change (skipn 1 (T "b" ++ repr_ascii s)) with (repr_ascii s). unfold repr_ascii. cbv zeta. set (q := quote_of s).
  assert (q = "'"%char \/ q = z2b 34) as Hq by (unfold q, quote_of; destruct (_ && _); auto). unfold parseBytes.
  replace (lstrip (q :: List.concat (map (repr_char q) s) ++ [q])) with (q :: List.concat (map (repr_char q) s) ++ [q]) by (destruct Hq as [->| ->]; reflexivity).
  replace (Ascii.eqb q "'"%char || Ascii.eqb q (z2b 34)) with true by (destruct Hq as [->| ->]; reflexivity). now rewrite literal_repr.
Qed.
(** ** Literals *)
Definition quote (q : ascii) : Prop := q = "'"%char \/ q = z2b 34.
Definition prepend (s : list byte) (r : option (res (list byte))) : option (res (list byte)) := fold_right lit_cons r s.
Definition no_octal (t : text) : bool := match t with c :: _ => negb (is_octal c) | [] => true end.
Lemma octdigit_facts n : 0 <= n < 8 -> is_octal (octdigit n) = true /\ octal_digit (octdigit n) = n /\ simple_escape (octdigit n) = None /\ Ascii.eqb (octdigit n) "x" = false.
Proof. intros H. assert (n = 0 \/ n = 1 \/ n = 2 \/ n = 3 \/ n = 4 \/ n = 5 \/ n = 6 \/ n = 7) as Hn by lia. destruct Hn as [->|[->|[->|[->|[->|[->|[->| ->]]]]]]]; vm_compute; auto. Qed.
Lemma is_octal_digit c : is_octal c = true -> 0 <= octal_digit c < 8 /\ c = octdigit (octal_digit c).
Proof.
  intros H. assert (implb (is_octal c) ((0 <=? octal_digit c) && (octal_digit c <? 8) && Ascii.eqb c (octdigit (octal_digit c))) = true) as Hc.
  { revert c H. refine (fun c _ => forall_ascii (fun c => implb (is_octal c) ((0 <=? octal_digit c) && (octal_digit c <? 8) && Ascii.eqb c (octdigit (octal_digit c)))) _ c). vm_compute. reflexivity. }
  rewrite H in Hc. cbn [implb] in Hc. apply andb_prop in Hc as [Hc H3]. apply andb_prop in Hc as [H1 H2]. apply Ascii.eqb_eq in H3. split; [zb; lia|exact H3].
Qed.
Lemma escape_in e n : In (e, n) escapes -> simple_escape e = Some (z2b n).
Proof. intros H. repeat (destruct H as [H|H]; [injection H as <- <-; reflexivity|]). destruct H. Qed.
Lemma in_escape e d : simple_escape e = Some d -> exists n, In (e, n) escapes /\ d = z2b n.
Proof.
  intros H. exists (b2z d). assert (match simple_escape e with Some d => existsb (fun p => Ascii.eqb (fst p) e && (snd p =? b2z d)) escapes && Ascii.eqb d (z2b (b2z d)) | None => true end = true) as Hc.
  { refine (forall_ascii (fun e => match simple_escape e with Some d => existsb (fun p => Ascii.eqb (fst p) e && (snd p =? b2z d)) escapes && Ascii.eqb d (z2b (b2z d)) | None => true end) _ e). vm_compute. reflexivity. }
  rewrite H in Hc. apply andb_prop in Hc as [Hc H2]. apply Ascii.eqb_eq in H2. split; [|exact H2]. apply existsb_exists in Hc as ([e' n'] & Hi & Hx). cbn [fst snd] in Hx. apply andb_prop in Hx as [H3 H4]. apply Ascii.eqb_eq in H3. apply Z.eqb_eq in H4. now subst.
Qed.
Lemma escape_not e : simple_escape e = None -> forall n, ~ In (e, n) escapes.
Proof. intros H n Hi. apply escape_in in Hi. congruence. Qed.
Lemma not_escape e : (forall n, ~ In (e, n) escapes) -> simple_escape e = None.
Proof. intros H. destruct (simple_escape e) as [d|] eqn:E; [|reflexivity]. apply in_escape in E as (n & Hi & _). now apply H in Hi. Qed.
Lemma hex_of u x : 0 <= x < 16 -> hex_value (hexdigit u x) = Some x.
Proof.
  intros H. assert (x = 0 \/ x = 1 \/ x = 2 \/ x = 3 \/ x = 4 \/ x = 5 \/ x = 6 \/ x = 7 \/ x = 8 \/ x = 9 \/ x = 10 \/ x = 11 \/ x = 12 \/ x = 13 \/ x = 14 \/ x = 15) as Hn by lia.
  repeat (destruct Hn as [->|Hn]; [destruct u; reflexivity|]). subst x. destruct u; reflexivity.
Qed.
Lemma of_hex h x : hex_value h = Some x -> 0 <= x < 16 /\ exists u, h = hexdigit u x.
Proof.
  intros H. assert (match hex_value h with Some x => (0 <=? x) && (x <? 16) && (Ascii.eqb h (hexdigit false x) || Ascii.eqb h (hexdigit true x)) | None => true end = true) as Hc.
  { refine (forall_ascii (fun h => match hex_value h with Some x => (0 <=? x) && (x <? 16) && (Ascii.eqb h (hexdigit false x) || Ascii.eqb h (hexdigit true x)) | None => true end) _ h). vm_compute. reflexivity. }
  rewrite H in Hc. apply andb_prop in Hc as [Hc H3]. apply andb_prop in Hc as [H1 H2]. split; [zb; lia|]. apply orb_prop in H3 as [H3|H3]; apply Ascii.eqb_eq in H3; eauto.
Qed.
Lemma ends_char c : char_in [z2b 0; z2b 10; z2b 13] c = true <-> line_end c.
Proof.
  unfold line_end. assert (Bool.eqb (char_in [z2b 0; z2b 10; z2b 13] c) (existsb (Z.eqb (b2z c)) [0; 10; 13]) = true) as Hc.
  { refine (forall_ascii (fun c => Bool.eqb (char_in [z2b 0; z2b 10; z2b 13] c) (existsb (Z.eqb (b2z c)) [0; 10; 13])) _ c). vm_compute. reflexivity. }
  apply eqb_prop in Hc. rewrite Hc. rewrite existsb_exists. split; [intros (x & Hi & Hx); apply Z.eqb_eq in Hx; now subst|intros Hi; exists (b2z c); split; [exact Hi|apply Z.eqb_refl]].
Qed.
Lemma ends_not c : char_in [z2b 0; z2b 10; z2b 13] c = false <-> ~ line_end c.
Proof. rewrite <- ends_char. destruct (char_in _ c); split; intros H; congruence || tauto. Qed.
Lemma starts_octal_char t : no_octal t = true <-> ~ starts_octal t.
Proof.
  unfold no_octal. destruct t as [|c t].
  - split; [intros _ (n & u & _ & E); discriminate E|reflexivity].
  - split.
    + intros H (n & u & Hn & E). injection E as -> ->. destruct (octdigit_facts n Hn) as (H1 & _). rewrite H1 in H. discriminate H.
    + intros H. destruct (is_octal c) eqn:E; [|reflexivity]. exfalso. apply H. destruct (is_octal_digit c E) as [H1 H2]. exists (octal_digit c), t. split; [exact H1|]. now rewrite <- H2.
Qed.
Lemma quote_not_octal q : quote q -> is_octal q = false.
Proof. intros [->| ->]; reflexivity. Qed.
Lemma quote_backslash q : quote q -> Ascii.eqb "\" q = false.
Proof. intros [->| ->]; reflexivity. Qed.

Lemma literal_written q s t rest : quote q -> written q s t -> no_octal rest = true -> literal q (t ++ rest) = prepend s (literal q rest).
Proof.
  intros Hq H Hr. pose proof (quote_backslash q Hq) as Hb.
  induction H as [|c s t H1 H2 H3 H4 H IH|e n s t H1 H IH|c u v s t H IH|i j k s t Hi Hj Hk H IH|i j s t Hi Hj Ho H IH|i s t Hi Ho H IH|e s t H1 H2 H3 H4 H5 H IH]; cbn [app prepend fold_right]; [reflexivity|..];
    fold (prepend s (literal q rest)); cbn [literal].
  - apply Ascii.eqb_neq in H1, H2. apply ends_not in H3. rewrite H1, H2, H3. destruct (Z.leb_spec 128 (b2z c)); [lia|]. now rewrite IH.
  - rewrite Hb. cbn [Ascii.eqb Bool.eqb]. rewrite (escape_in _ _ H1). now rewrite IH.
  - rewrite Hb. cbn [Ascii.eqb Bool.eqb]. change (simple_escape "x") with (@None ascii). cbv iota. pose proof (b2z_range c) as Hc.
    rewrite !hex_of by (split; [first [apply Z.div_pos|apply Z.mod_pos_bound]; lia|first [apply Z.div_lt_upper_bound|apply Z.mod_pos_bound]; lia]).
    rewrite (Z.mul_comm (b2z c / 16) 16), <- Z.div_mod by lia. rewrite IH, z2b_b2z. reflexivity.
  - rewrite Hb. destruct (octdigit_facts i Hi) as (I1 & I2 & I3 & I4). destruct (octdigit_facts j Hj) as (J1 & J2 & _). destruct (octdigit_facts k Hk) as (K1 & K2 & _).
    cbn [Ascii.eqb Bool.eqb]. rewrite I3, I4, I1, J1, K1, I2, J2, K2, IH. do 3 f_equal. lia.
  - rewrite Hb. destruct (octdigit_facts i Hi) as (I1 & I2 & I3 & I4). destruct (octdigit_facts j Hj) as (J1 & J2 & _).
    cbn [Ascii.eqb Bool.eqb]. rewrite I3, I4, I1, J1, I2, J2. apply starts_octal_char in Ho.
    assert (no_octal (t ++ rest) = true) as Hn by (destruct t; [exact Hr|exact Ho]). rewrite <- IH. rewrite (Z.mul_comm 8). destruct (t ++ rest) as [|g r]; [reflexivity|]. cbn [no_octal] in Hn. destruct (is_octal g); [discriminate Hn|reflexivity].
  - rewrite Hb. destruct (octdigit_facts i Hi) as (I1 & I2 & I3 & I4).
    cbn [Ascii.eqb Bool.eqb]. rewrite I3, I4, I1, I2. apply starts_octal_char in Ho.
    assert (no_octal (t ++ rest) = true) as Hn by (destruct t; [exact Hr|exact Ho]). rewrite <- IH. destruct (t ++ rest) as [|g r]; [reflexivity|]. cbn [no_octal] in Hn. destruct (is_octal g); [discriminate Hn|reflexivity].
  - rewrite Hb. cbn [Ascii.eqb Bool.eqb]. rewrite (not_escape _ H1). apply Ascii.eqb_neq in H2. rewrite H2. assert (is_octal e = false) as ->.
    { destruct (is_octal e) eqn:E; [|reflexivity]. destruct (is_octal_digit e E) as [E1 E2]. now destruct (H3 _ E1). }
    apply ends_not in H4. rewrite H4. destruct (Z.leb_spec 128 (b2z e)); [lia|]. now rewrite IH.
Qed.
Lemma prepend_ok s l : prepend s (Some (Ok l)) = Some (Ok (s ++ l)).
Proof. induction s as [|c s IH]; [reflexivity|]. cbn [prepend fold_right app]. fold (prepend s (Some (Ok l))). now rewrite IH. Qed.
Lemma prepend_err s e : prepend s (Some (Err e)) = Some (Err e).
Proof. induction s as [|c s IH]; [reflexivity|]. cbn [prepend fold_right]. fold (prepend s (Some (@Err (list byte) e))). now rewrite IH. Qed.
Lemma prepend_none s : prepend s None = None.
Proof. induction s as [|c s IH]; [reflexivity|]. cbn [prepend fold_right]. fold (prepend s None). now rewrite IH. Qed.
Lemma written_literal q s t : quote q -> written q s t -> literal q (t ++ [q]) = Some (Ok s).
Proof.
  intros Hq H. rewrite (literal_written q s t [q] Hq H) by (cbn; now rewrite (quote_not_octal q Hq)). cbn [literal]. rewrite Ascii.eqb_refl, prepend_ok, app_nil_r. reflexivity.
Qed.
Lemma not_one_none q u : quote q -> not_one_literal q u -> literal q u = None.
Proof.
  intros Hq (s & t & rest & H & Hu). pose proof (quote_not_octal q Hq) as Ho. pose proof (quote_backslash q Hq) as Hb. destruct Hu as [[-> Hr]|(c & Hc & [-> | ->])].
  - rewrite (literal_written q s t _ Hq H) by (cbn; now rewrite Ho). cbn [literal]. rewrite Ascii.eqb_refl. destruct rest; [congruence|]. apply prepend_none.
  - assert (c = z2b 0 \/ c = z2b 10 \/ c = z2b 13) as Hx by (rewrite <- (z2b_b2z c); destruct Hc as [<-|[<-|[<-|[]]]]; auto).
    rewrite (literal_written q s t _ Hq H) by (destruct Hx as [->|[->| ->]]; reflexivity). destruct Hx as [->|[->| ->]]; destruct Hq as [->| ->]; apply prepend_none.
  - apply ends_char in Hc. rewrite (literal_written q s t _ Hq H) by reflexivity. cbn [literal]. rewrite Hb. cbn [Ascii.eqb Bool.eqb].
    assert (simple_escape c = None /\ Ascii.eqb c "x" = false /\ is_octal c = false) as (-> & -> & ->).
    { pose proof (forall_ascii (fun c => implb (char_in [z2b 0; z2b 10; z2b 13] c) ((match simple_escape c with None => true | _ => false end) && negb (Ascii.eqb c "x") && negb (is_octal c))) ltac:(vm_compute; reflexivity) c) as Hx. cbv beta in Hx. rewrite Hc in Hx. cbn [implb] in Hx.
      apply andb_prop in Hx as [Hx H3]. apply andb_prop in Hx as [H1 H2]. destruct (simple_escape c); [discriminate H1|]. apply negb_true_iff in H2, H3. auto. }
    rewrite Hc. apply prepend_none.
Qed.
Definition explained (q : ascii) (u : text) (r : option (res (list byte))) : Prop :=
  match r with
  | Some (Ok s) => exists t, u = t ++ [q] /\ written q s t
  | Some (Err e) => e = ESyntaxError
  | None => not_one_literal q u
  end.
(** [pre]: the text of one step *)
Lemma explained_step q pre bytes u r : (forall s t x, u = t ++ x -> written q s t -> written q (bytes ++ s) (pre ++ t)) -> explained q u r -> explained q (pre ++ u) (prepend bytes r).
Proof.
  intros Hw H. destruct r as [[s|e]|].
  - destruct H as (t & -> & H). rewrite prepend_ok. exists (pre ++ t). split; [apply app_assoc|exact (Hw _ _ _ eq_refl H)].
  - cbn in H. subst e. now rewrite prepend_err.
  - rewrite prepend_none. destruct H as (s & t & rest & H & Hu). exists (bytes ++ s), (pre ++ t), rest. destruct Hu as [[-> Hr]|(c & Hc & [-> | ->])].
    + split; [exact (Hw _ _ _ eq_refl H)|]. left. split; [now rewrite app_assoc|exact Hr].
    + split; [exact (Hw _ _ _ eq_refl H)|]. right. exists c. split; [exact Hc|]. left. now rewrite app_assoc.
    + split; [exact (Hw _ _ _ eq_refl H)|]. right. exists c. split; [exact Hc|]. right. now rewrite app_assoc.
Qed.
Lemma no_octal_prefix t x : no_octal (t ++ x) = true -> no_octal t = true.
Proof. destruct t; [reflexivity|auto]. Qed.
Lemma literal_explained q : quote q -> forall n u, (List.length u <= n)%nat -> explained q u (literal q u).
Proof.
  intros Hq. induction n as [|n IH]; intros u Hl; [destruct u; [reflexivity|cbn in Hl; lia]|].
  destruct u as [|c u]; [reflexivity|]. cbn [literal]. cbn [List.length] in Hl.
  destruct (Ascii.eqb_spec c q) as [->|Hcq].
  { destruct u as [|x u]; [exists []; split; [reflexivity|constructor]|]. exists [], [], (x :: u). split; [constructor|]. left. split; [reflexivity|discriminate]. }
  destruct (Ascii.eqb_spec c "\") as [->|Hcb].
  - destruct u as [|e u]; [reflexivity|]. cbn [List.length] in Hl. destruct (simple_escape e) as [d|] eqn:Ee.
    { apply in_escape in Ee as (m & Hi & ->). apply (explained_step q ["\"%char; e] [z2b m] u (literal q u)); [|apply IH; lia]. intros s t x _ H. now apply written_escape. }
    destruct (Ascii.eqb_spec e "x") as [->|Hx].
    { destruct u as [|h [|l u]]; try reflexivity. destruct (hex_value h) as [vh|] eqn:Eh; [|reflexivity]. destruct (hex_value l) as [vl|] eqn:El; [|reflexivity].
      apply of_hex in Eh as (Rh & uh & ->). apply of_hex in El as (Rl & ul & ->). cbn [List.length] in Hl.
      apply (explained_step q ["\"%char; "x"%char; hexdigit uh vh; hexdigit ul vl] [z2b (vh * 16 + vl)] u (literal q u)); [|apply IH; lia]. intros s t x _ H.
      pose proof (written_hex q (z2b (vh * 16 + vl)) uh ul s t H) as W. rewrite b2z_z2b_small in W by lia.
      replace ((vh * 16 + vl) / 16) with vh in W by (rewrite Z.div_add_l by lia; rewrite Z.div_small by lia; lia). replace ((vh * 16 + vl) mod 16) with vl in W by (rewrite Z.add_comm, Z.mod_add, Z.mod_small; lia). exact W. }
    destruct (is_octal e) eqn:Eo.
    { destruct (is_octal_digit e Eo) as [Ri Ei]. set (i := octal_digit e) in *. clearbody i. subst e.
      assert (no_octal u = true -> explained q ("\"%char :: octdigit i :: u) (lit_cons (z2b i) (literal q u))) as H1.
      { intros Hn. apply (explained_step q ["\"%char; octdigit i] [z2b i] u (literal q u)); [|apply IH; lia]. intros s t x -> H. apply written_octal1; [exact Ri| |exact H]. apply starts_octal_char. exact (no_octal_prefix _ _ Hn). }
      destruct u as [|f u]; [apply H1; reflexivity|]. destruct (is_octal f) eqn:Ef; [|apply H1; cbn; now rewrite Ef]. clear H1. cbn [List.length] in Hl.
      destruct (is_octal_digit f Ef) as [Rj Ej]. set (j := octal_digit f) in *. clearbody j. subst f.
      assert (no_octal u = true -> explained q ("\"%char :: octdigit i :: octdigit j :: u) (lit_cons (z2b (i * 8 + j)) (literal q u))) as H1.
      { intros Hn. apply (explained_step q ["\"%char; octdigit i; octdigit j] [z2b (i * 8 + j)] u (literal q u)); [|apply IH; lia]. intros s t x -> H. rewrite (Z.mul_comm i 8). apply written_octal2; [exact Ri|exact Rj| |exact H]. apply starts_octal_char. exact (no_octal_prefix _ _ Hn). }
      destruct u as [|g u]; [apply H1; reflexivity|]. destruct (is_octal g) eqn:Eg; [|apply H1; cbn; now rewrite Eg]. clear H1. cbn [List.length] in Hl.
      destruct (is_octal_digit g Eg) as [Rk Ek]. set (k := octal_digit g) in *. clearbody k. subst g.
      apply (explained_step q ["\"%char; octdigit i; octdigit j; octdigit k] [z2b ((i * 64 + j * 8 + k) mod 256)] u (literal q u)); [|apply IH; lia]. intros s t x _ H.
      replace (i * 64 + j * 8 + k) with (64 * i + 8 * j + k) by lia. now apply written_octal3. }
    destruct (char_in [z2b 0; z2b 10; z2b 13] e) eqn:Ec.
    { apply ends_char in Ec. exists [], [], u. split; [constructor|]. right. exists e. split; [exact Ec|]. right. reflexivity. }
    destruct (Z.leb_spec 128 (b2z e)); [reflexivity|].
    apply (explained_step q ["\"%char; e] ["\"%char; e] u (literal q u)); [|apply IH; lia]. intros s t x _ Hw. apply written_other; auto; [now apply escape_not| |now apply ends_not].
    intros m Hm ->. destruct (octdigit_facts m Hm) as (H1 & _). congruence.
  - destruct (char_in [z2b 0; z2b 10; z2b 13] c) eqn:Ec.
    { apply ends_char in Ec. exists [], [], u. split; [constructor|]. right. exists c. split; [exact Ec|]. left. reflexivity. }
    destruct (Z.leb_spec 128 (b2z c)); [reflexivity|]. apply (explained_step q [c] [c] u (literal q u)); [|apply IH; lia]. intros s t x _ Hw. apply written_itself; auto. now apply ends_not.
Qed.
(** What the command follow makes of a text that starts with a quote *)
Lemma parse_quoted eval q u n : quote q -> parseBytes eval (repeat " "%char n ++ q :: u) =
  match literal q u with Some r => r | None => do v <- eval (T "b" ++ q :: u); match v with Some s => Ok s | None => Err ETypeError end end.
Proof.
  intros Hq. unfold parseBytes. assert (forall x, lstrip (q :: x) = q :: x) as Hl by (intros x; destruct Hq as [->| ->]; reflexivity).
  assert (lstrip (repeat " "%char n ++ q :: u) = q :: u) as ->. { induction n; [apply Hl|exact IHn]. }
  replace (Ascii.eqb q "'"%char || Ascii.eqb q (z2b 34)) with true by (destruct Hq as [->| ->]; reflexivity). reflexivity.
Qed.
Lemma follow_written eval q s t n : q = "'"%char \/ q = """"%char -> written q s t -> parseBytes eval (repeat " "%char n ++ [q] ++ t ++ [q]) = Ok s.
Proof. intros Hq H. change (quote q) in Hq. cbn [app]. rewrite parse_quoted, (written_literal q s t Hq H) by exact Hq. reflexivity. Qed.
Lemma follow_only eval q u n s : q = "'"%char \/ q = """"%char -> ~ not_one_literal q u -> parseBytes eval (repeat " "%char n ++ [q] ++ u) = Ok s -> exists t, u = t ++ [q] /\ written q s t.
Proof.
  intros Hq Hn H. change (quote q) in Hq. cbn [app] in H. rewrite parse_quoted in H by exact Hq. pose proof (literal_explained q Hq _ u (le_n _)) as Hx. destruct (literal q u) as [r|]; [|now apply Hn in Hx]. subst r. exact Hx.
Qed.
Lemma follow_refused eval q u n : q = "'"%char \/ q = """"%char -> ~ not_one_literal q u -> ~ (exists s t, u = t ++ [q] /\ written q s t) -> parseBytes eval (repeat " "%char n ++ [q] ++ u) = Err ESyntaxError.
Proof.
  intros Hq Hn Hw. change (quote q) in Hq. cbn [app]. rewrite parse_quoted by exact Hq. pose proof (literal_explained q Hq _ u (le_n _)) as Hx. destruct (literal q u) as [[s|e]|]; [|now rewrite Hx|now apply Hn in Hx]. exfalso. apply Hw. exists s. exact Hx.
Qed.
Lemma follow_eval eval q u n : q = "'"%char \/ q = """"%char -> not_one_literal q u -> parseBytes eval (repeat " "%char n ++ [q] ++ u) = (do v <- eval (T "b" ++ [q] ++ u); match v with Some s => Ok s | None => Err ETypeError end).
Proof. intros Hq Hn. change (quote q) in Hq. cbn [app]. rewrite parse_quoted, (not_one_none q u Hq Hn) by exact Hq. reflexivity. Qed.
(** Two sets of terms with the same text are the same. *)
Lemma literal_tail q s t s' t' : q = "'"%char \/ q = z2b 34 -> List.concat (map (repr_char q) s) ++ q :: t = List.concat (map (repr_char q) s') ++ q :: t' -> s = s' /\ t = t'.
Proof.
  intros Hq. revert s'. assert (forall c x y, repr_char q c ++ x <> q :: y) as Hc by (intros c x y; destruct Hq as [->| ->]; destruct c as [[] [] [] [] [] [] [] []]; discriminate).
  assert (forall c c' x y, repr_char q c ++ x = repr_char q c' ++ y -> lit_cons c (literal q x) = lit_cons c' (literal q y)) as _ by (intros c c' x y E; rewrite <- !literal_char by exact Hq; now rewrite E).
  assert (forall c c' x y, repr_char q c ++ x = repr_char q c' ++ y -> c = c') as Hi.
  { intros c c' x y E. pose proof (f_equal (firstn 4) E) as E4.
    assert (forall c x, exists k, (k = 1 \/ k = 2 \/ k = 4)%nat /\ firstn k (repr_char q c ++ x) = repr_char q c /\ List.length (repr_char q c) = k) as Hl.
    { intros d z. destruct Hq as [->| ->]; destruct d as [[] [] [] [] [] [] [] []]; (eexists; split; [|split; [|reflexivity]]; [auto|reflexivity]). }
    assert (forall d z e w, (repr_char q d ++ z = repr_char q e ++ w) -> (List.length (repr_char q d) = List.length (repr_char q e))) as Hlen.
    { intros d z e w E'. assert (forall f, List.length (repr_char q f) = match repr_char q f with "\"%char :: "x"%char :: _ => 4%nat | "\"%char :: _ => 2%nat | _ => 1%nat end) as Hk
        by (intros f; destruct Hq as [->| ->]; destruct f as [[] [] [] [] [] [] [] []]; reflexivity).
      rewrite !Hk. destruct (Hl d z) as (k1 & K1 & _ & L1). destruct (Hl e w) as (k2 & K2 & _ & L2). rewrite Hk in L1, L2.
      assert (forall f v, match repr_char q f with "\"%char :: "x"%char :: _ => 4%nat | "\"%char :: _ => 2%nat | _ => 1%nat end = match repr_char q f ++ v with "\"%char :: "x"%char :: _ => 4%nat | "\"%char :: _ => 2%nat | _ => 1%nat end) as Hm.
      { intros f v. destruct Hq as [->| ->]; destruct f as [[] [] [] [] [] [] [] []]; reflexivity. }
      rewrite (Hm d z), (Hm e w). now rewrite E'. }
    specialize (Hlen _ _ _ _ E). assert (repr_char q c = repr_char q c') as E1.
    { pose proof (f_equal (firstn (List.length (repr_char q c))) E) as E2. rewrite Hlen in E2 at 2. rewrite !firstn_app, !firstn_all, !Nat.sub_diag in E2. cbn [firstn] in E2. now rewrite !app_nil_r in E2. }
    pose proof (literal_char q c [q] Hq) as L1. pose proof (literal_char q c' [q] Hq) as L2. rewrite E1 in L1. rewrite L1 in L2. replace (literal q [q]) with (Some (@Ok (list byte) [])) in L2 by (destruct Hq as [->| ->]; reflexivity). cbn in L2. congruence. }
  induction s as [|c s IH]; intros s' E; destruct s' as [|c' s']; cbn [map List.concat app] in E.
  - injection E as E. now split.
  - rewrite <- app_assoc in E. symmetry in E. now apply Hc in E.
  - rewrite <- app_assoc in E. now apply Hc in E.
  - rewrite <- !app_assoc in E. pose proof (Hi _ _ _ _ E) as <-. apply app_inv_head in E. destruct (IH _ E) as [-> ->]. now split.
Qed.
Lemma repr_tail s t s' t' : repr_bytes s ++ t = repr_bytes s' ++ t' -> s = s' /\ t = t'.
Proof.
  unfold repr_bytes, repr_ascii. cbv zeta. cbn [T list_ascii_of_string app]. intros E. injection E as Eq E. rewrite <- !app_assoc in E. cbn [app] in E. rewrite Eq in E.
  apply literal_tail in E; [exact E|]. unfold quote_of. destruct (_ && _); auto.
Qed.
Lemma show_inj l : forall l', showFollowTerms l = showFollowTerms l' -> l = l'.
Proof.
  unfold showFollowTerms. cbn [T list_ascii_of_string app]. intros l' E. injection E as E. revert l' E.
  induction l as [|s l IH]; intros l' E; destruct l' as [|s' l']; [reflexivity| | |].
  - destruct l'; discriminate E.
  - destruct l; discriminate E.
  - assert (forall x m, join [","%char; " "%char] (map repr_bytes (x :: m)) ++ ["]"%char] = repr_bytes x ++ match m with [] => ["]"%char] | _ => [","%char; " "%char] ++ join [","%char; " "%char] (map repr_bytes m) ++ ["]"%char] end) as Hj.
    { intros x m. destruct m as [|y m]; [reflexivity|]. cbn [map join]. now rewrite <- !app_assoc. }
    rewrite !Hj in E. apply repr_tail in E as [-> E]. f_equal. destruct l as [|x l], l' as [|x' l']; try discriminate E; [reflexivity|]. apply IH. apply app_inv_head in E. exact E.
Qed.

(** ** Generators *)
Lemma gen_for_ok {A B} (l : list A) (f : A -> gen B) : (forall x, In x l -> snd (f x) = Ok tt) -> gen_for l f = (flat_map (fun x => fst (f x)) l, Ok tt).
Proof.
  induction l as [|x l IH]; intros H; [reflexivity|]. cbn [gen_for flat_map]. pose proof (H x (or_introl eq_refl)) as Hx. destruct (f x) as [ys r]. cbn [snd fst] in *. subst r.
  rewrite IH by (intros; apply H; now right). reflexivity.
Qed.
Lemma gen_bind_ok {A B} (g : gen A) (f : A -> gen B) : snd g = Ok tt -> (forall x, In x (fst g) -> snd (f x) = Ok tt) -> gen_bind g f = (flat_map (fun x => fst (f x)) (fst g), Ok tt).
Proof. intros H1 H2. unfold gen_bind. rewrite gen_for_ok by exact H2. now rewrite H1. Qed.
Lemma flat_map_single {A B} (f : A -> B) l : flat_map (fun x => [f x]) l = map f l.
Proof. induction l as [|x l IH]; [reflexivity|]. cbn. now rewrite IH. Qed.

Lemma flat_map_same {A B} (f g : A -> list B) l : (forall x, In x l -> f x = g x) -> flat_map f l = flat_map g l.
Proof. induction l as [|x l IH]; intros H; [reflexivity|]. cbn. rewrite (H x (or_introl eq_refl)), IH; [reflexivity|]. intros; apply H; now right. Qed.

(** ** Search *)
Section Search.
  Context (p : platform) (pid : nat -> Z) (maps : nat -> res (list mapping)) (read : nat -> Z -> Z -> res (list byte)).
  Context (ms : nat -> list mapping) (content : nat -> mapping -> list byte).
  Lemma search_mapping id pat m : readable (maps id) (read id) (ms id) (content id) -> pat <> [] -> In m (ms id) ->
    snd (search (read id) pat m) = Ok tt /\
    (forall a, In a (fst (search (read id) pat m)) -> occurs pat (content id m) (a - mp_start m)) /\
    (forall i, occurs pat (content id m) i -> covered pat (mp_start m + i) (fst (search (read id) pat m))).
  Proof.
    intros [_ H] Hp Hm. destruct (H m Hm) as [Hr He]. destruct (search_spec (read id) pat (mp_start m) (content id m) Hr Hp m eq_refl He) as (L & -> & HL & _ & Hc). cbn [fst snd]. split; [reflexivity|]. split.
    - intros a Ha. apply in_map_iff in Ha as (o & <- & Ho). rewrite Forall_forall in HL. replace (mp_start m + o - mp_start m) with o by lia. auto.
    - intros i Hi. destruct (Hc i Hi) as [Hin|(o & Ho & Hlt)].
      + exists (mp_start m + i). split; [now apply in_map|]. destruct pat; [congruence|]. rewrite zlen_cons. pose proof (zlen_nonneg pat). lia.
      + exists (mp_start m + o). split; [now apply in_map|lia].
  Qed.
  Lemma find_all processes terms : (forall id, In id processes -> readable (maps id) (read id) (ms id) (content id)) -> Forall (fun t => t <> []) terms ->
    find_terms maps read processes terms =
    (flat_map (fun term => flat_map (fun id => flat_map (fun m => map (fun a => (id, m, a, term)) (fst (search (read id) term m))) (ms id)) processes) terms, Ok tt).
  Proof.
    intros Hp Ht. unfold find_terms. rewrite Forall_forall in Ht.
    assert (forall term id m, In term terms -> In id processes -> In m (ms id) ->
      gen_bind (search (read id) term m) (fun address => ([(id, m, address, term)], Ok tt)) = (map (fun a => (id, m, a, term)) (fst (search (read id) term m)), Ok tt)) as H1.
    { intros term id m H1 H2 H3. destruct (search_mapping id term m (Hp id H2) (Ht _ H1) H3) as (Hs & _). rewrite gen_bind_ok; [|exact Hs|reflexivity]. cbn [fst]. now rewrite flat_map_single. }
    assert (forall term id, In term terms -> In id processes ->
      gen_res (maps id) (fun l => gen_for l (fun m => gen_bind (search (read id) term m) (fun address => ([(id, m, address, term)], Ok tt)))) =
      (flat_map (fun m => map (fun a => (id, m, a, term)) (fst (search (read id) term m))) (ms id), Ok tt)) as H2.
    { intros term id Hin1 Hin2. destruct (Hp id Hin2) as [Hm _]. rewrite Hm. cbn [gen_res]. rewrite gen_for_ok by (intros m Hm'; now rewrite H1). f_equal.
      apply flat_map_same. intros m Hm'. now rewrite H1. }
    assert (forall term, In term terms -> gen_for processes (fun id => gen_res (maps id) (fun l => gen_for l (fun m => gen_bind (search (read id) term m) (fun address => ([(id, m, address, term)], Ok tt))))) =
      (flat_map (fun id => flat_map (fun m => map (fun a => (id, m, a, term)) (fst (search (read id) term m))) (ms id)) processes, Ok tt)) as H3.
    { intros term Hin. rewrite gen_for_ok by (intros id Hid; now rewrite H2). f_equal. apply flat_map_same. intros id Hid. now rewrite H2. }
    rewrite gen_for_ok by (intros term Hin; now rewrite H3). f_equal. apply flat_map_same. intros term Hin. now rewrite H3.
  Qed.
  Lemma find_spec processes terms : (forall id, In id processes -> readable (maps id) (read id) (ms id) (content id)) -> Forall (fun t => t <> []) terms ->
    exists L, find_terms maps read processes terms = (L, Ok tt) /\
      (forall id m a t, In (id, m, a, t) L -> In t terms /\ In id processes /\ In m (ms id) /\ occurs t (content id m) (a - mp_start m)) /\
      (forall id m t i, In t terms -> In id processes -> In m (ms id) -> occurs t (content id m) i -> exists a, In (id, m, a, t) L /\ a <= mp_start m + i < a + zlen t).
  Proof.
    intros Hp Ht. eexists. split; [exact (find_all processes terms Hp Ht)|]. rewrite Forall_forall in Ht. split.
    - intros id m a t H. apply in_flat_map in H as (t' & Ht' & H). apply in_flat_map in H as (id' & Hid & H). apply in_flat_map in H as (m' & Hm & H). apply in_map_iff in H as (a' & [= -> -> -> ->] & Ha).
      repeat split; auto. now apply (search_mapping id t m (Hp id Hid) (Ht _ Ht') Hm).
    - intros id m t i Hin Hid Hm Ho. destruct (search_mapping id t m (Hp id Hid) (Ht _ Hin) Hm) as (_ & _ & Hc). destruct (Hc i Ho) as (a & Ha & Hle). exists a. split; [|exact Hle].
      apply in_flat_map. exists t. split; [exact Hin|]. apply in_flat_map. exists id. split; [exact Hid|]. apply in_flat_map. exists m. split; [exact Hm|]. apply in_map_iff. eauto.
  Qed.
  Lemma word_nonempty w a : word2bytes p a = Ok w -> w <> [].
  Proof. intros H ->. apply word_roundtrip in H as [H _]. rewrite zlen_nil in H. unfold word_size in H. destruct (p_64bits p); lia. Qed.
  Lemma pointers_spec id a w : readable (maps id) (read id) (ms id) (content id) -> word2bytes p a = Ok w ->
    exists L, getPointers p maps read id a = (L, Ok tt) /\
      (forall b, In b L -> exists m, In m (ms id) /\ occurs w (content id m) (b - mp_start m)) /\
      (forall m i, In m (ms id) -> occurs w (content id m) i -> covered w (mp_start m + i) L).
  Proof.
    intros Hr Hw. pose proof (word_nonempty w a Hw) as Hne. pose proof Hr as [Hm _]. unfold getPointers. rewrite Hw, Hm. cbn [gen_res].
    rewrite gen_for_ok by (intros m Hin; now apply search_mapping). eexists. split; [reflexivity|]. split.
    - intros b Hb. apply in_flat_map in Hb as (m & Hin & Hb). exists m. split; [exact Hin|]. now apply (search_mapping id w m Hr Hne Hin).
    - intros m i Hin Ho. destruct (search_mapping id w m Hr Hne Hin) as (_ & _ & Hc). destruct (Hc i Ho) as (b & Hb & Hle). exists b. split; [|exact Hle]. apply in_flat_map. eauto.
  Qed.
  Lemma xray_spec processes terms : (forall id, In id processes -> readable (maps id) (read id) (ms id) (content id)) -> Forall (fun t => t <> []) terms ->
    (forall id m, In id processes -> In m (ms id) -> 0 <= mp_start m /\ mp_end m <= 2 ^ (8 * word_size p)) ->
    exists L, find_terms maps read processes terms = (L, Ok tt) /\
      xray p pid maps read processes terms = (map (fun f : found => let '(id, m, a, t) := f in
        T "term[" ++ repr_bytes t ++ T "] pid[" ++ str_int (pid id) ++ T "] " ++ map_str p m ++ T " " ++ formatAddress p a ++ T " pointers: " ++
        join (T " ") (map (formatAddress p) (fst (getPointers p maps read id a)))) L, Ok tt) /\
      (forall id m a t, In (id, m, a, t) L -> snd (getPointers p maps read id a) = Ok tt).
  Proof.
    intros Hp Ht Hb. destruct (find_spec processes terms Hp Ht) as (L & HL & Hs & _).
    assert (forall id m a t, In (id, m, a, t) L -> snd (getPointers p maps read id a) = Ok tt) as Hg.
    { intros id m a t H. destruct (Hs id m a t H) as (Hin & Hid & Hm & (before & after & Hc & Hz)). destruct (Hp id Hid) as [_ Hr]. destruct (Hr m Hm) as [_ He]. destruct (Hb id m Hid Hm) as [Hb1 Hb2].
      rewrite Forall_forall in Ht. pose proof (Ht t Hin) as Hne. assert (0 <= a < 2 ^ (8 * word_size p)) as Hr2.
      { rewrite Hc, !zlen_app in He. pose proof (zlen_nonneg before). pose proof (zlen_nonneg after). destruct t as [|x t]; [congruence|]. rewrite zlen_cons in He. pose proof (zlen_nonneg t). lia. }
      apply word_domain in Hr2 as (w & Hw). destruct (pointers_spec id a w (Hp id Hid) Hw) as (L' & HL' & _). now rewrite HL'. }
    exists L. split; [exact HL|]. split; [|exact Hg]. unfold xray. rewrite gen_bind_ok; rewrite HL; cbn [fst snd]; [|reflexivity|].
    - f_equal. rewrite <- flat_map_single. apply flat_map_same. intros [[[id m] a] t] H. unfold xray_line. specialize (Hg id m a t H). destruct (getPointers p maps read id a) as [l r]. cbn [snd] in Hg. subst r. reflexivity.
    - intros [[[id m] a] t] H. unfold xray_line. specialize (Hg id m a t H). destruct (getPointers p maps read id a) as [l r]. cbn [snd] in Hg. subst r. reflexivity.
  Qed.
End Search.
(** A mapping that cannot be read *)
Lemma unreadable : exists maps read m, maps O = Ok [Mapping 4096 8192 (T "---p") 0 0 0 0 (Some (T "[vvar]")); m] /\
  reads (read O) (mp_start m) (T "secret") /\ mp_end m = mp_start m + 6 /\ xray linux_x86_64 (fun _ => 1) maps read [O] [T "secret"] = ([], Err (EOSError 5)).
Proof.
  exists (fun _ => Ok [Mapping 4096 8192 (T "---p") 0 0 0 0 (Some (T "[vvar]")); Mapping 65536 65542 (T "rw-p") 0 0 0 0 (Some (T "[heap]"))]),
    (fun _ a n => if a <? 8192 then Err (EOSError 5) else Ok (firstn (Z.to_nat n) (skipn (Z.to_nat (a - 65536)) (T "secret")))), (Mapping 65536 65542 (T "rw-p") 0 0 0 0 (Some (T "[heap]"))).
  split; [reflexivity|]. split; [|split; [reflexivity|vm_compute; reflexivity]]. intros before middle after E. cbn [mp_start].
  destruct (65536 + zlen before <? 8192) eqn:El; [zb; pose proof (zlen_nonneg before); lia|]. f_equal. replace (65536 + zlen before - 65536) with (zlen before) by lia. rewrite E. unfold zlen. rewrite !Nat2Z.id, skipn_app, skipn_all, Nat.sub_diag. cbn [skipn app]. rewrite firstn_app, Nat.sub_diag, firstn_all. cbn [firstn]. now rewrite app_nil_r.
Qed.
Lemma empty_term : exists maps read, (forall a n, exists s, read O a n = Ok s) /\ snd (find_terms maps read [O] [[]]) = Err EDiverges.
Proof.
  exists (fun _ => Ok [Mapping 0 4 (T "r--p") 0 0 0 0 None]), (fun _ _ _ => Ok []). split; [intros; now exists []|]. vm_compute. reflexivity.
Qed.
