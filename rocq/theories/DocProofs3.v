(** * DocProofs3: the calendar. *)
From Coq Require Import ZArith List Ascii String Bool Lia.
From Verif Require Import PyBase PyFacts HostModel DocModel DocSpec.
Import ListNotations.
Open Scope Z_scope.
Ltac Zify.zify_post_hook ::= Z.to_euclidean_division_equations.

Ltac numbers := repeat match goal with |- context [Z.to_nat ?e] => let v := eval vm_compute in (Z.to_nat e) in change (Z.to_nat e) with v end;
  cbn [nth firstn sum fold_right].
Definition before_month (y m : Z) : Z := sum (firstn (Z.to_nat (m - 1)) (month_lengths y)).
Definition month_length (y m : Z) : Z := nth (Z.to_nat (m - 1)) (month_lengths y) 0.
Lemma months (P : Z -> Prop) : P 1 -> P 2 -> P 3 -> P 4 -> P 5 -> P 6 -> P 7 -> P 8 -> P 9 -> P 10 -> P 11 -> P 12 -> forall m, 1 <= m <= 12 -> P m.
Proof.
  intros. assert (m = 1 \/ m = 2 \/ m = 3 \/ m = 4 \/ m = 5 \/ m = 6 \/ m = 7 \/ m = 8 \/ m = 9 \/ m = 10 \/ m = 11 \/ m = 12) as D by lia.
  repeat (destruct D as [->|D]; [assumption|]). now subst m.
Qed.
Definition ymd_month (leap : bool) (n : Z) : Z * Z :=
  let month := Z.shiftr (n + 50) 5 in
  let preceding := days_before_month leap month in
  let '(month, preceding) := if n <? preceding then (month - 1, days_before_month leap (month - 1)) else (month, preceding) in
  (month, n - preceding + 1).
Definition in_month (leap : bool) (m : Z) : Prop :=
  let lengths := [31; if leap then 29 else 28; 31; 30; 31; 30; 31; 31; 30; 31; 30; 31] in
  forall d, 1 <= d <= nth (Z.to_nat (m - 1)) lengths 0 -> ymd_month leap (sum (firstn (Z.to_nat (m - 1)) lengths) + (d - 1)) = (m, d).
Definition all_days (leap : bool) (m : Z) : bool :=
  let lengths := [31; if leap then 29 else 28; 31; 30; 31; 30; 31; 31; 30; 31; 30; 31] in
  forallb (fun k => let d := Z.of_nat k + 1 in
    if d <=? nth (Z.to_nat (m - 1)) lengths 0 then
      let (m', d') := ymd_month leap (sum (firstn (Z.to_nat (m - 1)) lengths) + (d - 1)) in (m' =? m) && (d' =? d) else true) (seq 0 31).
Lemma all_days_month leap m : 1 <= m <= 12 -> all_days leap m = true -> in_month leap m.
Proof.
  intros M A d D. unfold all_days in A. rewrite forallb_forall in A.
  assert (B : 1 <= d <= 31) by (revert D; pattern m; apply months; [..|exact M]; destruct leap; numbers; lia).
  specialize (A (Z.to_nat (d - 1))). rewrite Z2Nat.id in A by lia. replace (d - 1 + 1) with d in A by lia.
  assert (I : In (Z.to_nat (d - 1)) (seq 0 31)) by (apply in_seq; lia). specialize (A I). cbv zeta in A.
  destruct (d <=? nth (Z.to_nat (m - 1)) [31; if leap then 29 else 28; 31; 30; 31; 30; 31; 31; 30; 31; 30; 31] 0) eqn:Q; [|apply Z.leb_gt in Q; lia].
  destruct (ymd_month leap _) as [m' d']. apply andb_prop in A as [A1 A2]. apply Z.eqb_eq in A1, A2. now subst.
Qed.
Lemma month_found leap m : 1 <= m <= 12 -> in_month leap m.
Proof. intros M. apply all_days_month; [exact M|]. pattern m. apply months; [..|exact M]; destruct leap; vm_compute; reflexivity. Qed.
Lemma year_bound y m d : 1 <= m <= 12 -> 1 <= d <= month_length y m ->
  0 <= before_month y m + (d - 1) < 365 + (if leap_year y then 1 else 0) /\ (before_month y m + (d - 1) = 365 -> m = 12 /\ d = 31).
Proof.
  intros M. unfold before_month, month_length, month_lengths. revert d. pattern m. apply months; [..|exact M]; intros d; destruct (leap_year y); numbers; lia.
Qed.
(** the year in its cycles of 400, 100 and 4 years *)
Lemma cycles y : 1 <= y -> exists a b c e, y = 400 * a + 100 * b + 4 * c + e + 1 /\ 0 <= a /\ 0 <= b <= 3 /\ 0 <= c <= 24 /\ 0 <= e <= 3 /\
  days_before_year y = 146097 * a + 36524 * b + 1461 * c + 365 * e /\ leap_year y = (e =? 3) && (negb (c =? 24) || (b =? 3)).
Proof.
  intros Y. exists ((y - 1) / 400), (((y - 1) mod 400) / 100), ((((y - 1) mod 400) mod 100) / 4), ((y - 1) mod 4).
  assert (E : y = 400 * ((y - 1) / 400) + 100 * (((y - 1) mod 400) / 100) + 4 * ((((y - 1) mod 400) mod 100) / 4) + (y - 1) mod 4 + 1) by lia.
  split; [exact E|]. split; [lia|]. split; [lia|]. split; [lia|]. split; [lia|]. split; [unfold days_before_year; lia|].
  unfold leap_year.
  destruct (Z.eqb_spec (y mod 400) 0); destruct (Z.eqb_spec (y mod 100) 0); destruct (Z.eqb_spec (y mod 4) 0); destruct (Z.eqb_spec ((y - 1) mod 4) 3);
    destruct (Z.eqb_spec ((((y - 1) mod 400) mod 100) / 4) 24); destruct (Z.eqb_spec (((y - 1) mod 400) / 100) 3); cbn [negb orb andb]; try reflexivity; exfalso; lia.
Qed.
Lemma div_unique a b q r : 0 <= r < b -> a = b * q + r -> a / b = q /\ a mod b = r.
Proof. intros. split; [symmetry; apply (Z.div_unique a b q r); lia|symmetry; apply (Z.mod_unique a b q r); lia]. Qed.
Lemma ord2ymd_spec y m d : 1 <= y -> 1 <= m <= 12 -> 1 <= d <= month_length y m -> ord2ymd (days_before_year y + before_month y m + (d - 1) + 1) = (y, m, d).
Proof.
  intros Y M D. destruct (year_bound y m d M D) as [B L]. destruct (cycles y Y) as (a & b & c & e & Ey & A & Hb & Hc & He & Ed & El).
  unfold ord2ymd. set (k := before_month y m + (d - 1)) in *.
  replace (days_before_year y + before_month y m + (d - 1) + 1 - 1) with (146097 * a + (36524 * b + 1461 * c + 365 * e + k)) by (rewrite Ed; unfold k; lia).
  assert (K : k < 365 \/ (k = 365 /\ e = 3 /\ (c = 24 -> b = 3) /\ leap_year y = true)).
  { rewrite El in B. destruct (Z.eqb_spec e 3) as [E3|E3]; [|cbn in B; lia]. destruct (Z.eqb_spec c 24) as [Ec|Ec]; destruct (Z.eqb_spec b 3) as [Eb|Eb]; cbn in B, El; try lia.
    all: destruct (Z_lt_ge_dec k 365); [left; lia|right; repeat split; try lia; exact El]. }
  destruct (div_unique (146097 * a + (36524 * b + 1461 * c + 365 * e + k)) 146097 a (36524 * b + 1461 * c + 365 * e + k)) as [-> ->]; [lia|lia|].
  destruct K as [K|(K & -> & K2 & K3)].
  - destruct (div_unique (36524 * b + 1461 * c + 365 * e + k) 36524 b (1461 * c + 365 * e + k)) as [-> ->]; [lia|lia|].
    destruct (div_unique (1461 * c + 365 * e + k) 1461 c (365 * e + k)) as [-> ->]; [lia|lia|].
    destruct (div_unique (365 * e + k) 365 e k) as [-> ->]; [lia|lia|].
    destruct (Z.eqb_spec e 4) as [|]; [lia|]. destruct (Z.eqb_spec b 4) as [|]; [lia|]. cbn [orb].
    rewrite <- El. pose proof (month_found (leap_year y) m M d) as F. unfold in_month in F. specialize (F D).
    change (sum (firstn (Z.to_nat (m - 1)) [31; if leap_year y then 29 else 28; 31; 30; 31; 30; 31; 31; 30; 31; 30; 31]) + (d - 1)) with k in F.
    unfold ymd_month in F. cbv zeta in F |- *.
    destruct (if k <? days_before_month (leap_year y) (Z.shiftr (k + 50) 5) then _ else _) as [m' p]. injection F as -> F. rewrite F.
    replace (a * 400 + 1 + b * 100 + c * 4 + e) with y by lia. reflexivity.
  - destruct (L K) as [-> ->]. destruct (Z.eqb_spec c 24) as [->|Hc2].
    + rewrite K2 in * by reflexivity.
      destruct (div_unique (36524 * 3 + 1461 * 24 + 365 * 3 + k) 36524 4 0) as [-> ->]; [lia|lia|]. cbn [Z.div Z.modulo].
      rewrite orb_true_r. replace (a * 400 + 1 + 4 * 100 + 0 / 1461 * 4 + 0 mod 1461 / 365 - 1) with y by (cbn; lia). reflexivity.
    + destruct (div_unique (36524 * b + 1461 * c + 365 * 3 + k) 36524 b (1461 * c + 365 * 3 + k)) as [-> ->]; [lia|lia|].
      destruct (div_unique (1461 * c + 365 * 3 + k) 1461 c (365 * 3 + k)) as [-> ->]; [lia|lia|].
      destruct (div_unique (365 * 3 + k) 365 4 0) as [-> ->]; [lia|lia|]. cbn [Z.eqb orb Pos.eqb].
      replace (a * 400 + 1 + b * 100 + c * 4 + 4 - 1) with y by lia. reflexivity.
Qed.
Lemma epoch_number : day_number (Moment 1970 1 1 0 0 0 0) = 719162.
Proof. reflexivity. Qed.
Lemma repr_moment t : exists_moment t -> repr_datetime (since_1970 t) = shown_moment t.
Proof.
  intros (Y & M & D & Hh & Hm & Hs & Hu). unfold repr_datetime, since_1970. rewrite epoch_number. unfold US, EPOCH_ORDINAL.
  set (n := day_number t). set (s := (n - 719162) * 86400 + hour t * 3600 + minute t * 60 + second t).
  destruct (div_unique (s * 1000000 + micro t) 1000000 s (micro t)) as [-> ->]; [lia|lia|].
  destruct (div_unique s 86400 (n - 719162) (hour t * 3600 + minute t * 60 + second t)) as [-> ->]; [lia|unfold s; lia|].
  replace (n - 719162 + 719163) with (days_before_year (year t) + before_month (year t) (month t) + (day t - 1) + 1) by (unfold n, day_number, before_month; lia).
  rewrite ord2ymd_spec; [|lia|exact M|exact D]. cbv zeta.
  destruct (div_unique (hour t * 3600 + minute t * 60 + second t) 3600 (hour t) (minute t * 60 + second t)) as [-> _]; [lia|lia|].
  destruct (div_unique (hour t * 3600 + minute t * 60 + second t) 60 (hour t * 60 + minute t) (second t)) as [-> ->]; [lia|lia|].
  destruct (div_unique (hour t * 60 + minute t) 60 (hour t) (minute t)) as [_ ->]; [lia|lia|].
  unfold shown_moment. destruct (micro t =? 0) eqn:E1; destruct (second t =? 0) eqn:E2; cbn [andb List.app map join]; rewrite <- ?app_assoc; cbn [List.app]; reflexivity.
Qed.
Lemma date_range t : exists_moment t -> DATE_MIN * US <= since_1970 t < (DATE_MAX + 1) * US.
Proof.
  intros (Y & M & D & Hh & Hm & Hs & Hu). unfold since_1970. rewrite epoch_number. unfold DATE_MIN, DATE_MAX, US.
  destruct (year_bound (year t) (month t) (day t) M D) as [B _].
  assert (N : 0 <= day_number t <= 3652058).
  { unfold day_number. fold (before_month (year t) (month t)). unfold days_before_year.
    assert (leap_year (year t) = true -> year t <> 9999) by (intros L E; now rewrite E in L).
    destruct (leap_year (year t)); lia. }
  lia.
Qed.
(** timestampUNIX shows the moment, in UTC or moved by the offset of the local time at 1970-01-01 *)
Lemma timestamp_utc zone t : exists_moment t -> (do u <- timestampUNIX_us zone (since_1970 t) false; Ok (repr_datetime u)) = Ok (shown_moment t).
Proof.
  intros X. destruct (date_range t X) as [A B]. unfold timestampUNIX_us, timedelta_us, add_date_us, DELTA_MIN, DELTA_MAX in *. 
  destruct ((-999999999 * 86400 * US <=? since_1970 t) && (since_1970 t <? (999999999 * 86400 + 86399 + 1) * US)) eqn:Q.
  2:{ apply andb_false_iff in Q as [Q|Q]; [apply Z.leb_gt in Q|apply Z.ltb_ge in Q]; unfold US, DATE_MIN, DATE_MAX in *; lia. }
  cbn [bind]. rewrite Z.add_0_l.
  destruct ((DATE_MIN * US <=? since_1970 t) && (since_1970 t <? (DATE_MAX + 1) * US)) eqn:Q2.
  2:{ apply andb_false_iff in Q2 as [Q2|Q2]; [apply Z.leb_gt in Q2|apply Z.ltb_ge in Q2]; lia. }
  cbn [bind]. now rewrite repr_moment.
Qed.
