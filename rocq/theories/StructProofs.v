(** * StructProofs: reading and writing structure fields. *)
From Coq Require Import ZArith List Ascii String Bool Lia.
From Verif Require Import PyBase PyFacts IntModel IntSpec IntProofs StructModel.
Import ListNotations.
Open Scope Z_scope.

Lemma align_up_ge off size : 0 < size -> off <= align_up off size /\ (size | align_up off size).
Proof.
  intros H. unfold align_up. split; [|exists ((off + size - 1) / size); reflexivity].
  pose proof (Z.div_mod (off + size - 1) size). pose proof (Z.mod_pos_bound (off + size - 1) size H). nia.
Qed.
Lemma layout_names off fs : map fst (layout off fs) = map fst fs.
Proof. revert off; induction fs as [|[n sz] fs IH]; intros off; cbn; f_equal; auto. Qed.
Lemma layout_bounds fs : Forall (fun f : text * Z => 0 < snd f) fs ->
  forall off n o sz, In (n, (o, sz)) (layout off fs) ->
    off <= o /\ 0 < sz /\ (sz | o) /\ o + sz <= end_offset off fs /\ In (n, sz) fs.
Proof.
  induction fs as [|[n0 sz0] fs IH]; intros Hp off n o sz; cbn [layout end_offset]; [easy|].
  inversion Hp as [|? ? H1 H2]; subst. cbn in H1. pose proof (align_up_ge off sz0 H1) as [Hg Hd].
  assert (Hmono : forall fs off, Forall (fun f : text * Z => 0 < snd f) fs -> off <= end_offset off fs).
  { clear. induction fs as [|[n sz] fs IH]; intros off H; cbn [end_offset]; [lia|]. inversion H; subst. cbn in *.
    pose proof (align_up_ge off sz H2) as [? _]. specialize (IH (align_up off sz + sz) H3). lia. }
  cbn [In]. intros [E|E].
  - injection E as <- <- <-. specialize (Hmono fs (align_up off sz0 + sz0) H2). split; [lia|].
    split; [lia|]. split; [exact Hd|]. split; [lia|now left].
  - destruct (IH H2 _ _ _ _ E) as (A & B & C & D & F). split; [lia|]. split; [lia|]. split; [exact C|]. split; [lia|now right].
Qed.
Lemma layout_disjoint fs : Forall (fun f : text * Z => 0 < snd f) fs ->
  forall off n o sz n' o' sz', n <> n' -> In (n, (o, sz)) (layout off fs) -> In (n', (o', sz')) (layout off fs) ->
    o + sz <= o' \/ o' + sz' <= o.
Proof.
  induction fs as [|[n0 sz0] fs IH]; intros Hp off n o sz n' o' sz' Hne; cbn [layout]; [easy|].
  inversion Hp as [|? ? H1 H2]; subst. cbn [In]. intros [E|E] [E'|E'].
  - congruence.
  - injection E as <- <- <-. destruct (layout_bounds fs H2 _ _ _ _ E') as (A & _). lia.
  - injection E' as <- <- <-. destruct (layout_bounds fs H2 _ _ _ _ E) as (A & _). lia.
  - eapply IH; eauto.
Qed.

Lemma host_bytes_length big n v : List.length (host_bytes big n v) = n.
Proof. unfold host_bytes. destruct big; [rewrite rev_length|]; apply le_bytes_length. Qed.
Lemma pow256 n : 256 ^ Z.of_nat n = 2 ^ (8 * Z.of_nat n).
Proof. change 256 with (2 ^ 8). rewrite <- Z.pow_mul_r; lia. Qed.
Lemma host_bytes_value big n v : host_value big (host_bytes big n v) = v mod 2 ^ (8 * Z.of_nat n).
Proof.
  rewrite host_value_cases. unfold host_bytes.
  assert (0 <= v mod 2 ^ (8 * Z.of_nat n) < 256 ^ Z.of_nat n)
    by (rewrite pow256; apply Z.mod_pos_bound; apply Z.pow_pos_nonneg; lia).
  destruct big; [rewrite rev_involutive|]; now apply le_value_bytes.
Qed.

(** the bytes of a field *)
Definition field_bytes (s : list byte) (o sz : Z) : list byte := firstn (Z.to_nat sz) (skipn (Z.to_nat o) s).
Lemma slice_field s o sz : 0 <= sz -> slice o (o + sz) s = field_bytes s o sz.
Proof. intros H. unfold slice, field_bytes. do 2 f_equal. lia. Qed.

Lemma nth_error_ext {A} (l1 l2 : list A) : (forall i, nth_error l1 i = nth_error l2 i) -> l1 = l2.
Proof.
  revert l2; induction l1 as [|x l1 IH]; intros [|y l2] H; auto.
  - discriminate (H O).
  - discriminate (H O).
  - pose proof (H O) as H0. injection H0 as ->. f_equal. apply IH. intros i. exact (H (S i)).
Qed.
Lemma nth_error_firstn {A} (l : list A) n i :
  nth_error (firstn n l) i = if (i <? n)%nat then nth_error l i else None.
Proof.
  revert n l; induction i as [|i IH]; intros [|n] [|x l]; cbn [firstn nth_error]; auto.
  - now destruct (_ <? _)%nat.
  - rewrite IH. reflexivity.
Qed.
Lemma nth_error_skipn {A} (l : list A) n i : nth_error (skipn n l) i = nth_error l (n + i).
Proof.
  revert l; induction n as [|n IH]; intros [|x l]; cbn; auto. now destruct i.
Qed.

Definition update (s : list byte) (o sz : Z) (b : list byte) : list byte :=
  firstn (Z.to_nat o) s ++ b ++ skipn (Z.to_nat (o + sz)) s.
Lemma update_length s o sz b : 0 <= o -> 0 <= sz -> o + sz <= zlen s -> zlen b = sz -> zlen (update s o sz b) = zlen s.
Proof.
  intros. unfold update. rewrite !zlen_app. unfold zlen in *. rewrite firstn_length, skipn_length. lia.
Qed.
Lemma update_same s o sz b : 0 <= o -> 0 <= sz -> o + sz <= zlen s -> zlen b = sz ->
  field_bytes (update s o sz b) o sz = b.
Proof.
  intros Ho Hs Hl Hb. unfold field_bytes, update, zlen in *.
  rewrite skipn_app, skipn_all2 by (rewrite firstn_length; lia).
  rewrite firstn_length. replace (Z.to_nat o - _)%nat with O by lia. cbn [app skipn].
  rewrite firstn_app, firstn_all2 by lia. replace (Z.to_nat sz - _)%nat with O by lia. now rewrite app_nil_r.
Qed.
Lemma update_other s o sz b o' sz' : 0 <= o -> 0 <= sz -> o + sz <= zlen s -> zlen b = sz ->
  0 <= o' -> 0 <= sz' -> o + sz <= o' \/ o' + sz' <= o ->
  field_bytes (update s o sz b) o' sz' = field_bytes s o' sz'.
Proof.
  intros Ho Hs Hl Hb Ho' Hs' Hd. unfold field_bytes, update, zlen in *. apply nth_error_ext. intros i.
  rewrite !nth_error_firstn. destruct (i <? Z.to_nat sz')%nat eqn:E; auto. apply Nat.ltb_lt in E.
  rewrite !nth_error_skipn. destruct Hd as [Hd|Hd].
  - rewrite nth_error_app2 by (rewrite firstn_length; lia).
    rewrite nth_error_app2 by (rewrite firstn_length; lia).
    rewrite nth_error_skipn, firstn_length. f_equal. lia.
  - rewrite nth_error_app1 by (rewrite firstn_length; lia).
    rewrite nth_error_firstn. replace (_ <? _)%nat with true by (symmetry; apply Nat.ltb_lt; lia). reflexivity.
Qed.

Section Fields.
  Context (big : bool) (fs : fields).
  Hypothesis Hpos : Forall (fun f : text * Z => 0 < snd f) fs.
  Hypothesis Hnd : NoDup (map fst fs).

  Lemma find_field n o sz : In (n, (o, sz)) (layout 0 fs) -> dget text_eqb n (layout 0 fs) = Some (o, sz).
  Proof.
    intros H. apply (dget_NoDup_In text_eqb text_eqb_eq); auto. now rewrite layout_names.
  Qed.
  Lemma in_layout n o sz (s : list byte) : In (n, (o, sz)) (layout 0 fs) -> sizeof fs <= zlen s ->
    0 <= o /\ 0 < sz /\ o + sz <= zlen s.
  Proof.
    intros H Hl. destruct (layout_bounds fs Hpos _ _ _ _ H) as (A & B & _ & C & _).
    assert (0 < max_align fs) as Hm.
    { unfold max_align. clear. induction fs as [|f l IH]; cbn; lia. }
    pose proof (align_up_ge (end_offset 0 fs) _ Hm) as [Hg _]. unfold sizeof in Hl. lia.
  Qed.
  Lemma field_bytes_length n o sz s : In (n, (o, sz)) (layout 0 fs) -> sizeof fs <= zlen s ->
    List.length (field_bytes s o sz) = Z.to_nat sz.
  Proof.
    intros H Hl. destruct (in_layout n o sz s H Hl) as (A & B & C). unfold field_bytes.
    rewrite firstn_length, skipn_length. unfold zlen in C. lia.
  Qed.
  Lemma get_field_ok n o sz s : In (n, (o, sz)) (layout 0 fs) -> sizeof fs <= zlen s ->
    get_field big fs s n = Ok (host_value big (field_bytes s o sz)).
  Proof.
    intros H Hl. destruct (in_layout n o sz s H Hl) as (A & B & C). unfold get_field.
    rewrite (find_field _ _ _ H), slice_field by lia.
    rewrite <- (field_bytes_length n o sz s H Hl). apply unpack_host.
  Qed.
  Lemma set_field_ok n o sz s v : In (n, (o, sz)) (layout 0 fs) ->
    set_field big fs s n v = Ok (update s o sz (host_bytes big (Z.to_nat sz) v)).
  Proof.
    intros H. unfold set_field. rewrite (find_field _ _ _ H). unfold slice, update.
    rewrite Z.sub_0_r. reflexivity.
  Qed.
End Fields.
(** Unknown fields; structures of bytes *)
Lemma unknown_field big fs s name value : ~ In name (map fst fs) -> get_field big fs s name = Err EAttributeError /\ set_field big fs s name value = Err EAttributeError.
Proof.
  intros H. unfold get_field, set_field. rewrite (proj2 (dget_None text_eqb text_eqb_eq name (layout 0 fs))); [auto|]. now rewrite layout_names.
Qed.
Lemma align_one off : align_up off 1 = off.
Proof. unfold align_up. rewrite Z.div_1_r. lia. Qed.
Lemma bytes_size fs : Forall (fun f => snd f = 1) fs -> sizeof fs = zlen fs.
Proof.
  intros H. unfold sizeof. assert (max_align fs = 1) as ->. { induction H as [|f fs Hf H IH]; [reflexivity|]. cbn [max_align fold_right]. rewrite Hf. unfold max_align in IH. now rewrite IH. }
  rewrite align_one. enough (forall off, end_offset off fs = off + zlen fs) as E by (rewrite E; lia).
  induction H as [|[n sz] fs Hf H IH]; intros off; cbn [end_offset]; [unfold zlen; cbn [List.length]; lia|]. cbn [snd] in Hf. subst sz. rewrite align_one, IH, zlen_cons. lia.
Qed.
