(** * UptimeProofs: proofs of C142. *)
From Coq Require Import ZArith List Ascii String Bool Lia.
From Verif Require Import PyBase PyFacts PyInt RegexModel RegexFacts PyIntFacts UptimeModel UptimeSpec.
Import ListNotations.
Open Scope Z_scope.

Lemma nearest_spec : forall n d, 0 < d -> 2 * Z.abs (d * nearest n d - n) <= d.
Proof.
  intros n d H. unfold nearest. assert (E := Z.div_mod n d ltac:(lia)). assert (R := Z.mod_pos_bound n d H). set (q := n / d) in *. set (r := n mod d) in *. cbv zeta.
  destruct (Z.ltb_spec (2 * r) d) as [L|L]; [ lia | ]. destruct (Z.ltb_spec d (2 * r)) as [M|M]; [ lia | ]. destruct (Z.even q); lia.
Qed.
Lemma nearest_unique : forall n d k, 0 < d -> 2 * Z.abs (d * k - n) < d -> nearest n d = k.
Proof.
  intros n d k H K. assert (N := nearest_spec n d H). assert (Z.abs (d * (nearest n d - k)) < d) by lia. rewrite Z.abs_mul, (Z.abs_eq d) in H0 by lia.
  assert (Z.abs (nearest n d - k) < 1) by nia. lia.
Qed.
(** The exponent is small enough for 53 bits *)
Definition small (n d e : Z) : Prop := let '(a, b) := scale n d e in 2 ^ 52 * b <= a.
Lemma small_first : forall n d, 0 < n -> 0 < d -> small n d (Z.log2 n - Z.log2 d - 53).
Proof.
  intros n d Hn Hd. unfold small, scale. destruct (Z.log2_spec n Hn) as [N _]. destruct (Z.log2_spec d Hd) as [_ D]. set (ln := Z.log2 n) in *. set (ld := Z.log2 d) in *.
  assert (0 <= ln) by apply Z.log2_nonneg. assert (0 <= ld) by apply Z.log2_nonneg. destruct (Z.leb_spec 0 (ln - ld - 53)) as [L|L].
  - assert (2 ^ ln = 2 ^ 52 * (2 ^ Z.succ ld * 2 ^ (ln - ld - 53))) by (rewrite <- !Z.pow_add_r by lia; f_equal; lia).
    assert (0 < 2 ^ (ln - ld - 53)) by (apply Z.pow_pos_nonneg; lia).
    apply Z.le_trans with (2 ^ ln); [ | exact N ]. rewrite H1. apply Z.mul_le_mono_nonneg_l; [ lia | ]. apply Z.mul_le_mono_nonneg_r; lia.
  - assert (2 ^ 52 * 2 ^ Z.succ ld = 2 ^ ln * 2 ^ (- (ln - ld - 53))) by (rewrite <- !Z.pow_add_r by lia; f_equal; lia).
    assert (0 < 2 ^ (- (ln - ld - 53))) by (apply Z.pow_pos_nonneg; lia).
    apply Z.le_trans with (2 ^ ln * 2 ^ (- (ln - ld - 53))); [ rewrite <- H1; lia | apply Z.mul_le_mono_nonneg_r; lia ].
Qed.
Lemma small_next : forall n d e, 0 < n -> 0 < d -> (let '(a, b) := scale n d e in 2 ^ 53 * b <= a) -> small n d (e + 1).
Proof.
  intros n d e Hn Hd. unfold small, scale. change (2 ^ 53) with (2 * 2 ^ 52). destruct (Z.leb_spec 0 e) as [L|L]; destruct (Z.leb_spec 0 (e + 1)) as [M|M]; try lia.
  - rewrite Z.pow_add_r by lia. change (2 ^ 1) with 2. lia.
  - assert (e = -1) by lia. subst e. change (2 ^ (- (-1))) with 2. change (2 ^ (-1 + 1)) with 1. lia.
  - replace (- e) with (- (e + 1) + 1) by lia. rewrite Z.pow_add_r by lia. change (2 ^ 1) with 2. lia.
Qed.
Lemma scale_positive : forall n d e, 0 < n -> 0 < d -> 0 < fst (scale n d e) /\ 0 < snd (scale n d e).
Proof.
  intros n d e Hn Hd. unfold scale. destruct (Z.leb_spec 0 e) as [L|L]; cbn [fst snd].
  - assert (0 < 2 ^ e) by (apply Z.pow_pos_nonneg; lia). nia.
  - assert (0 < 2 ^ (- e)) by (apply Z.pow_pos_nonneg; lia). nia.
Qed.
Lemma rounded_close : forall n d e, 0 < n -> 0 < d -> small n d e ->
  close (let '(a, b) := scale n d e in if 0 <=? e then (nearest a b * 2 ^ e, 1) else (nearest a b, 2 ^ (- e))) n d.
Proof.
  intros n d e Hn Hd. assert (P := scale_positive n d e Hn Hd). unfold small, scale, close in *. change (2 ^ 53) with (2 * 2 ^ 52). set (k := 2 ^ 52) in *. clearbody k.
  destruct (Z.leb_spec 0 e) as [L|L]; cbn [fst snd] in *; intros S; (split; [ lia | ]).
  - assert (N := nearest_spec n (d * 2 ^ e) ltac:(lia)). set (m := nearest n (d * 2 ^ e)) in *. clearbody m.
    replace (m * 2 ^ e * d - n * 1) with (d * 2 ^ e * m - n) by ring. nia.
  - assert (0 < 2 ^ (- e)) by (apply Z.pow_pos_nonneg; lia). split; [ lia | ] || idtac.
    assert (N := nearest_spec (n * 2 ^ (- e)) d Hd). set (m := nearest (n * 2 ^ (- e)) d) in *. clearbody m. replace (m * d - n * 2 ^ (- e)) with (d * m - n * 2 ^ (- e)) by ring. nia.
Qed.
Lemma double_close : forall n d, 0 <= n -> 0 < d -> close (double n d) n d.
Proof.
  intros n d Hn Hd. unfold double. destruct (Z.eqb_spec n 0) as [->|N]; [ unfold close; cbn [fst snd]; lia | ]. assert (0 < n) as P by lia.
  assert (F := small_first n d P Hd). set (e0 := Z.log2 n - Z.log2 d - 53) in *. destruct (scale n d e0) as [a b] eqn:E.
  assert (S : small n d (if a <? 2 ^ 53 * b then e0 else e0 + 1)).
  { destruct (Z.ltb_spec a (2 ^ 53 * b)) as [L|L]; [ exact F | ]. apply small_next; [ exact P | exact Hd | ]. rewrite E. exact L. }
  set (e := if a <? 2 ^ 53 * b then e0 else e0 + 1) in *. assert (C := rounded_close n d e P Hd S). destruct (scale n d e) as [a' b']. exact C.
Qed.

(** The microseconds of a floating point number near n hundredths *)
Lemma microseconds : forall f n, 0 <= fst f -> close f n 100 -> 0 <= n < 2 ^ 32 * 100 -> timedelta_us f = Ok (n * 10 ^ 4).
Proof.
  intros [fn fd] n Hf [D C] Hn. cbn [fst snd] in *. unfold timedelta_us. assert (R := Z.mod_pos_bound fn fd D). assert (E := Z.div_mod fn fd ltac:(lia)).
  set (i := fn / fd) in *. set (r := fn mod fd) in *. clearbody i r.
  destruct (double_close (r * 10 ^ 6) fd ltac:(lia) D) as [RD RC]. destruct (double (r * 10 ^ 6) fd) as [rn rd]. cbn [fst snd] in *.
  assert (K : nearest rn rd = n * 10 ^ 4 - i * 10 ^ 6).
  { apply nearest_unique; [ exact RD | ]. set (k := n * 10 ^ 4 - i * 10 ^ 6) in *.
    assert (M : r * 10 ^ 6 - k * fd = 10 ^ 4 * (fn * 100 - n * fd)) by (unfold k; rewrite E; ring).
    assert (B1 : Z.abs (rn * fd - r * 10 ^ 6 * rd) * 2 ^ 53 <= 10 ^ 6 * fd * rd) by nia.
    assert (B2 : Z.abs (r * 10 ^ 6 - k * fd) * 2 ^ 53 <= 10 ^ 4 * n * fd) by (rewrite M, Z.abs_mul; change (Z.abs (10 ^ 4)) with (10 ^ 4); nia).
    assert (B3 : Z.abs (rd * (r * 10 ^ 6 - k * fd)) * 2 ^ 53 <= 10 ^ 4 * n * fd * rd) by (rewrite Z.abs_mul, (Z.abs_eq rd) by lia; nia).
    assert (B4 : Z.abs (rn * fd - k * fd * rd) <= Z.abs (rn * fd - r * 10 ^ 6 * rd) + Z.abs (rd * (r * 10 ^ 6 - k * fd))).
    { replace (rn * fd - k * fd * rd) with ((rn * fd - r * 10 ^ 6 * rd) + rd * (r * 10 ^ 6 - k * fd)) by ring. apply Z.abs_triangle. }
    assert (B5 : Z.abs (rn * fd - k * fd * rd) = Z.abs (rd * k - rn) * fd).
    { replace (rn * fd - k * fd * rd) with (- (rd * k - rn) * fd) by ring. rewrite Z.abs_mul, Z.abs_opp, (Z.abs_eq fd) by lia. reflexivity. }
    set (x := Z.abs (rd * k - rn)) in *. clearbody x k.
    assert (B6 : x * 2 ^ 53 * fd <= (10 ^ 6 + 10 ^ 4 * n) * rd * fd) by lia.
    assert (B7 : x * 2 ^ 53 <= (10 ^ 6 + 10 ^ 4 * n) * rd) by (apply Z.mul_le_mono_pos_r with (p := fd); lia).
    assert (B8 : 2 * (10 ^ 6 + 10 ^ 4 * n) < 2 ^ 53) by lia. nia. }
  rewrite K. replace (i * 10 ^ 6 + (n * 10 ^ 4 - i * 10 ^ 6)) with (n * 10 ^ 4) by ring.
  destruct (Z.ltb_spec (n * 10 ^ 4) (1000000000 * 86400 * 10 ^ 6)) as [L|L]; [ reflexivity | lia ].
Qed.

(** ** The text *)
Lemma digit_plain : forall c, is_digit c = true -> is_space c = false /\ c <> "."%char.
Proof.
  intros c. assert (H : (negb (is_digit c) || (negb (is_space c) && negb (Ascii.eqb c "."%char))) = true) by (revert c; apply forall_ascii; vm_compute; reflexivity).
  intros D. rewrite D in H. cbn [negb orb] in H. apply andb_true_iff in H as [H1 H2]. apply negb_true_iff in H1, H2. split; [ exact H1 | ]. intros ->. discriminate.
Qed.
Lemma str_digits : forall n, 0 <= n -> str_int n = digits 10 n.
Proof. intros n H. unfold str_int, fmt_int. destruct (Z.ltb_spec n 0) as [L|L]; [ lia | reflexivity ]. Qed.
Lemma two_digits : forall n, 0 <= n < 100 -> Forall (fun c => is_digit c = true) (fmt_int0 10 2 n) /\ read_digits 10 (fmt_int0 10 2 n) 0 = Some n /\ zlen (fmt_int0 10 2 n) = 2.
Proof.
  intros n H. unfold fmt_int0. destruct (Z.ltb_spec n 0) as [L|L]; [ lia | ]. split; [ | split ].
  - unfold padl. apply Forall_app. split; [ | apply digits10_is; lia ]. apply Forall_forall. intros c Hc. apply repeat_spec in Hc. subst c. reflexivity.
  - rewrite read_padl by lia. apply digits_read; lia.
  - unfold zlen. rewrite padl_length. assert (Q := digits_length 10 n 2 ltac:(lia) ltac:(lia) ltac:(lia)). unfold zlen in Q. lia.
Qed.
Lemma float_hundredths : forall n, 0 <= n -> py_float (hundredths n) = Ok (double n 100).
Proof.
  intros n H. unfold py_float, hundredths. rewrite str_digits by (apply Z.div_pos; lia). destruct (two_digits (n mod 100) (Z.mod_pos_bound n 100 ltac:(lia))) as (D & R & L).
  set (b := fmt_int0 10 2 (n mod 100)) in *. assert (A := digits10_is (n / 100) (Z.div_pos n 100 H ltac:(lia))).
  assert (S : split1 "."%char (digits 10 (n / 100) ++ T "." ++ b) = Some (digits 10 (n / 100), b)).
  { apply split1_spec. split; [ reflexivity | ]. intros I. rewrite Forall_forall in A. exact (proj2 (digit_plain _ (A _ I)) eq_refl). }
  rewrite S. replace (forallb is_digit b) with true by (symmetry; apply forallb_forall; apply Forall_forall; exact D).
  assert (V : read_uint 10 (digits 10 (n / 100) ++ b) = Some n).
  { unfold read_uint. destruct (digits 10 (n / 100) ++ b) eqn:E; [ apply app_eq_nil in E as [E _]; exfalso; exact (digits_nonempty _ _ E) | rewrite <- E ].
    rewrite read_digits_app, digits_read by (try lia; apply Z.div_pos; lia). rewrite (read_digits_acc _ _ _ _ R), L. f_equal. assert (Q := Z.div_mod n 100 ltac:(lia)). lia. }
  rewrite V, L. reflexivity.
Qed.
Lemma hundredths_word : forall n, 0 <= n -> word (hundredths n).
Proof.
  intros n H. unfold hundredths. rewrite str_digits by (apply Z.div_pos; lia). destruct (two_digits (n mod 100) (Z.mod_pos_bound n 100 ltac:(lia))) as (D & _ & _). split.
  - intros E. apply app_eq_nil in E as [_ E]. discriminate.
  - assert (A := digits10_is (n / 100) (Z.div_pos n 100 H ltac:(lia))). apply Forall_app. split; [ eapply Forall_impl; [ | exact A ]; intros c Hc; exact (proj1 (digit_plain c Hc)) | ].
    constructor; [ reflexivity | ]. eapply Forall_impl; [ | exact D ]. intros c Hc. exact (proj1 (digit_plain c Hc)).
Qed.
Lemma first_word : forall w v, word w -> word v -> exists rest, split_ws (strip (w ++ T " " ++ v ++ [z2b 10])) = w :: rest.
Proof.
  intros w v [Nw Sw] [Nv Sv]. destruct (exists_last Nv) as (v' & c & ->). apply Forall_app in Sv as [_ Sc]. inversion Sc as [ | ? ? Hc _ ]; subst.
  assert (E : strip (w ++ T " " ++ (v' ++ [c]) ++ [z2b 10]) = w ++ T " " ++ v' ++ [c]).
  { unfold strip. replace (lstrip (w ++ T " " ++ (v' ++ [c]) ++ [z2b 10])) with ((w ++ T " " ++ v') ++ [c] ++ [z2b 10]).
    - rewrite rstrip_spaces; [ rewrite <- !app_assoc; reflexivity | exact Hc | repeat constructor ].
    - destruct w as [ | a w ]; [ contradiction | ]. inversion Sw; subst. cbn [app]. rewrite lstrip_none by assumption. rewrite <- !app_assoc. reflexivity. }
  rewrite E. unfold split_ws. rewrite split_ws_aux_word by exact Sw. rewrite app_nil_r. cbn [T list_ascii_of_string app split_ws_aux].
  change (is_space " "%char) with true. cbn iota. destruct (rev w) eqn:R; [ exfalso; apply Nw; rewrite <- (rev_involutive w), R; reflexivity | ].
  rewrite <- R, rev_involutive. eexists. reflexivity.
Qed.
Lemma double_positive : forall n d, 0 <= n -> 0 < d -> 0 <= fst (double n d).
Proof.
  intros n d Hn Hd. destruct (double_close n d Hn Hd) as [D C]. set (x := fst (double n d)) in *. set (y := snd (double n d)) in *. clearbody x y. nia.
Qed.
Lemma uptime_exact : forall up idle, 0 <= up < 2 ^ 32 * 100 -> 0 <= idle -> getUptime (Ok (Ok (uptime_file up idle))) = Ok (up * 10 ^ 4).
Proof.
  intros up idle Hu Hi. unfold getUptime, uptime_file. cbn [bind]. destruct (first_word _ _ (hundredths_word up ltac:(lia)) (hundredths_word idle Hi)) as [rest ->].
  rewrite float_hundredths by lia. cbn [bind]. apply microseconds; [ apply double_positive; lia | apply double_close; lia | exact Hu ].
Qed.
Lemma uptime_errors : forall n e, getUptime (Err (EOSError n)) = Err EProcError /\ getUptime (Ok (Err e)) = Err e.
Proof. intros n e. split; reflexivity. Qed.

(** Rounding *)
Lemma nearest_even : forall n d, 0 < d -> 2 * Z.abs (d * nearest n d - n) <= d /\ (2 * Z.abs (d * nearest n d - n) = d -> Z.Even (nearest n d)).
Proof.
  intros n d H. split; [exact (nearest_spec n d H)|]. unfold nearest. assert (E := Z.div_mod n d ltac:(lia)). assert (R := Z.mod_pos_bound n d H).
  set (q := n / d) in *. set (r := n mod d) in *. cbv zeta. destruct (Z.ltb_spec (2 * r) d) as [L|L]; [intros; exfalso; lia|].
  destruct (Z.ltb_spec d (2 * r)) as [M|M]; [intros; exfalso; lia|]. intros _. destruct (Z.even q) eqn:V; [now apply Z.even_spec|].
  apply Z.even_spec. rewrite Z.even_add, V. reflexivity.
Qed.
Lemma nearest_positive n d : 0 <= n -> 0 < d -> 0 <= nearest n d.
Proof. intros N H. assert (S := nearest_spec n d H). nia. Qed.
Lemma too_long : forall n d, 0 < d -> (10 ^ 9 * 86400) * d <= n -> timedelta_us (n, d) = Err EOverflowError.
Proof.
  intros n d H N. unfold timedelta_us. assert (0 <= n mod d * 10 ^ 6) as P by (assert (R := Z.mod_pos_bound n d H); lia).
  assert (Q := double_positive _ d P H). assert (0 < snd (double (n mod d * 10 ^ 6) d)) as S by (apply (double_close _ d P H)).
  destruct (double (n mod d * 10 ^ 6) d) as [rn rd]. cbn [fst snd] in Q, S. assert (W := nearest_positive rn rd Q S).
  assert (10 ^ 9 * 86400 <= n / d) as D by (apply Z.div_le_lower_bound; lia).
  destruct (Z.ltb_spec (n / d * 10 ^ 6 + nearest rn rd) (1000000000 * 86400 * 10 ^ 6)) as [L|L]; [exfalso; lia|reflexivity].
Qed.
