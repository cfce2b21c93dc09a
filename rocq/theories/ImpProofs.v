(** * ImpProofs: a host that passes the check imports every module in every order. *)
From Coq Require Import List Bool PArith Arith Lia.
From Verif Require Import Platform ImpNames ImpModel ImpCode ImpCheck.
Import ListNotations.
Open Scope nat_scope.

(** ** Namespaces *)
Lemma look_put_same : forall A n (v : A) l, look n (put n v l) = Some v.
Proof. induction l as [ | [k w] l IH]; cbn; [ rewrite Pos.eqb_refl; reflexivity | ]. destruct (Pos.eqb n k) eqn:E; cbn; rewrite E; [ reflexivity | exact IH ]. Qed.
Lemma look_put_other : forall A n m (v : A) l, m <> n -> look m (put n v l) = look m l.
Proof.
  intros A n m v l Hne. induction l as [ | [k w] l IH]; cbn.
  - rewrite (proj2 (Pos.eqb_neq m n) Hne). reflexivity.
  - destruct (Pos.eqb n k) eqn:E; cbn.
    + apply Pos.eqb_eq in E. subst k. rewrite (proj2 (Pos.eqb_neq m n) Hne). reflexivity.
    + rewrite IH. reflexivity.
Qed.
Lemma look_drop_same : forall A n (l : list (name * A)), look n (drop n l) = None.
Proof. induction l as [ | [k w] l IH]; cbn; [ reflexivity | ]. destruct (Pos.eqb n k) eqn:E; cbn; [ exact IH | rewrite E; exact IH ]. Qed.
Lemma look_drop_other : forall A n m (l : list (name * A)), m <> n -> look m (drop n l) = look m l.
Proof.
  intros A n m l Hne. induction l as [ | [k w] l IH]; cbn; [ reflexivity | ].
  destruct (Pos.eqb n k) eqn:E; cbn; rewrite IH; [ | reflexivity ].
  apply Pos.eqb_eq in E. subst k. rewrite (proj2 (Pos.eqb_neq m n) Hne). reflexivity.
Qed.
Lemma look_app : forall A n (a b : list (name * A)), look n (a ++ b) = match look n a with Some v => Some v | None => look n b end.
Proof. induction a as [ | [k w] a IH]; intros b; cbn; [ reflexivity | ]. destruct (Pos.eqb n k); [ reflexivity | apply IH ]. Qed.
Lemma has_look : forall A n (l : list (name * A)), has n l = true <-> look n l <> None.
Proof. intros A n l. unfold has. destruct (look n l); split; congruence. Qed.
Lemma names_put_same : forall x l st, names_of x (put x l st) = l.
Proof. intros x l st. unfold names_of. rewrite look_put_same. reflexivity. Qed.
Lemma names_put_other : forall x y l st, y <> x -> names_of y (put x l st) = names_of y st.
Proof. intros x y l st H. unfold names_of. rewrite look_put_other by exact H. reflexivity. Qed.
Lemma has_put_same : forall A x (v : A) l, has x (put x v l) = true.
Proof. intros A x v l. unfold has. rewrite look_put_same. reflexivity. Qed.
Lemma has_put_other : forall A x y (v : A) l, y <> x -> has y (put x v l) = has y l.
Proof. intros A x y v l H. unfold has. rewrite look_put_other by exact H. reflexivity. Qed.
Lemma has_drop_other : forall A x y (l : list (name * A)), y <> x -> has y (drop x l) = has y l.
Proof. intros A x y l H. unfold has. rewrite look_drop_other by exact H. reflexivity. Qed.
Lemma names_drop_other : forall x y st, y <> x -> names_of y (drop x st) = names_of y st.
Proof. intros x y st H. unfold names_of. rewrite look_drop_other by exact H. reflexivity. Qed.

Lemma mem_In : forall n l, mem n l = true <-> In n l.
Proof.
  intros n l. unfold mem. rewrite existsb_exists. split.
  - intros [x [H E]]. apply Pos.eqb_eq in E. subst x. exact H.
  - intros H. exists n. split; [ exact H | apply Pos.eqb_refl ].
Qed.
Lemma find_file_name : forall m l f, find_file m l = Some f -> f_name f = m /\ In f l.
Proof.
  induction l as [ | g l IH]; cbn; intros f H; [ discriminate | ].
  destruct (Pos.eqb m (f_name g)) eqn:E; [ inversion H; subst; split; [ apply Pos.eqb_eq in E; congruence | left; reflexivity ] | ].
  destruct (IH f H) as [A B]. split; [ exact A | right; exact B ].
Qed.

(** ** Submodules *)
Definition plain (w n : name) : Prop := submodule w n code = None.
Definition agree (w : name) (a b : ns) : Prop := forall n, plain w n -> look n a = look n b.
Lemma agree_refl : forall w a, agree w a a. Proof. intros w a n _. reflexivity. Qed.
Lemma agree_sym : forall w a b, agree w a b -> agree w b a. Proof. intros w a b H n Hn. symmetry. apply H, Hn. Qed.
Lemma agree_trans : forall w a b c, agree w a b -> agree w b c -> agree w a c.
Proof. intros w a b c H1 H2 n Hn. rewrite (H1 n Hn). apply H2, Hn. Qed.
Lemma agree_app : forall w new a b, agree w a b -> agree w (rev_append new a) (rev_append new b).
Proof. intros w new a b H n Hn. rewrite !rev_append_rev, !look_app. rewrite (H n Hn). reflexivity. Qed.
Lemma agree_drop : forall w names a b, agree w a b -> agree w (fold_left (fun l n => drop n l) names a) (fold_left (fun l n => drop n l) names b).
Proof.
  induction names as [ | m names IH]; intros a b H; cbn [fold_left]; [ exact H | ]. apply IH. intros n Hn.
  destruct (Pos.eq_dec n m) as [E | E]; [ subst; rewrite !look_drop_same; reflexivity | rewrite !look_drop_other by exact E; apply H, Hn ].
Qed.

Lemma files_ok : forallb file_ok code = true.
Proof. vm_compute. reflexivity. Qed.
Lemma file_ok_of : forall m f, find_file m code = Some f -> file_ok f = true /\ f_name f = m /\ In f code.
Proof. intros m f H. destruct (find_file_name m code f H) as [A B]. repeat split; try assumption. exact (proj1 (forallb_forall file_ok code) files_ok f B). Qed.

Lemma packages_there : forallb (fun g => match f_package g with Some p => ours code p | None => true end) code = true.
Proof. vm_compute. reflexivity. Qed.
Lemma submodule_none : forall all l w n,
  forallb (fun g => match f_package g with Some p => ours all p | None => true end) l = true -> find_file w all = None -> submodule w n l = None.
Proof.
  intros all l w n Hall Ef. induction l as [ | g l IH]; [ reflexivity | ]. cbn [forallb submodule] in *. apply andb_prop in Hall. destruct Hall as [Hg Hl].
  destruct (f_package g) as [p | ] eqn:Ep; [ | apply IH, Hl ].
  destruct (Pos.eqb p w) eqn:E; cbn [andb]; [ | apply IH, Hl ]. apply Pos.eqb_eq in E. subst p. unfold ours in Hg. rewrite Ef in Hg. discriminate.
Qed.
Lemma subs_plain : forall w n, mem n (subs w) = false -> plain w n.
Proof.
  intros w n H. unfold plain.
  destruct (find_file w code) as [f | ] eqn:Ef.
  - destruct (file_ok_of w f Ef) as [Hok [Hn _]]. unfold file_ok in Hok. apply andb_prop in Hok. destruct Hok as [Hok _]. apply andb_prop in Hok. destruct Hok as [_ Hok].
    unfold subs_ok in Hok. rewrite Hn in Hok. revert Hok. generalize code as l.
    induction l as [ | g l IH]; intros Hok; [ reflexivity | ]. cbn [forallb submodule] in *. apply andb_prop in Hok. destruct Hok as [Hg Hl].
    destruct (f_package g) as [p | ] eqn:Ep; [ | apply IH, Hl ].
    destruct (Pos.eqb p w) eqn:E; cbn [andb]; [ | apply IH, Hl ].
    destruct (Pos.eqb (f_short g) n) eqn:E2; [ | apply IH, Hl ]. apply Pos.eqb_eq in E2. subst n. congruence.
  - exact (submodule_none code code w n packages_there Ef).
Qed.
Lemma free_plain : forall w l n, free w l = true -> In n l -> plain w n.
Proof. intros w l n H Hn. apply subs_plain. pose proof (proj1 (forallb_forall _ _) H n Hn) as A. apply negb_true_iff in A. exact A. Qed.

(** ** The names that a module in execution must have *)
Lemma nt_key : forall w t a, nt w t = Some a -> exists r, In r nt_table /\ fst r = w.
Proof.
  intros w t a H. unfold nt in H. destruct (look w nt_table) as [row | ] eqn:E; [ | discriminate ]. clear H.
  revert E. generalize nt_table as l. induction l as [ | [k v] l IH]; cbn; [ discriminate | ]. intros E.
  destruct (Pos.eqb w k) eqn:Ek; [ apply Pos.eqb_eq in Ek; subst; exists (k, v); split; [ left; reflexivity | reflexivity ] | ].
  destruct (IH E) as [r [A B]]. exists r. split; [ right; exact A | exact B ].
Qed.
Lemma closed_nt : forall z m w a, closed z m = true -> nt w z = Some a -> anc 4 w m = true \/ exists b, nt w m = Some b /\ incl b a.
Proof.
  intros z m w a Hc Hw. destruct (nt_key w z a Hw) as [r [Hr Er]]. pose proof (proj1 (forallb_forall _ _) Hc r Hr) as A. cbn beta zeta in A. rewrite Er, Hw in A.
  destruct (anc 4 w m); [ left; reflexivity | right ]. cbn [orb] in A. destruct (nt w m) as [b | ]; [ | discriminate ]. exists b. split; [ reflexivity | ].
  intros n Hn. apply mem_In. exact (proj1 (forallb_forall _ _) A n Hn).
Qed.
Lemma nt_plain : forall w t f a n, find_file t code = Some f -> nt w t = Some a -> In n a -> plain w n.
Proof.
  intros w t f a n Hf Hw Hn. destruct (file_ok_of t f Hf) as [Hok [Ht _]]. unfold file_ok in Hok. apply andb_prop in Hok. destruct Hok as [_ Hok].
  destruct (nt_key w t a Hw) as [r [Hr Er]]. pose proof (proj1 (forallb_forall _ _) Hok r Hr) as A. cbn beta in A. rewrite Er, Ht, Hw in A. exact (free_plain w a n A Hn).
Qed.

(** ** States *)
Definition with_packages (st : modules) : Prop := forall w p, has w st = true -> package_of w = Some p -> has p st = true.
Lemma anc_present : forall k st w m, with_packages st -> has w st = true -> anc k w m = true -> has m st = true.
Proof.
  induction k as [ | k IH]; intros st w m Hp Hw Ha; cbn [anc] in Ha; apply orb_prop in Ha; destruct Ha as [Ha | Ha].
  - apply Pos.eqb_eq in Ha. subst. exact Hw.
  - discriminate.
  - apply Pos.eqb_eq in Ha. subst. exact Hw.
  - destruct (package_of w) as [p | ] eqn:Ep; [ | discriminate ]. exact (IH st p m Hp (Hp w p Hw Ep) Ha).
Qed.
Definition absent (st : modules) : nat := length (filter (fun f => negb (has (f_name f) st)) code).
Lemma filter_le : forall (A : Type) (p q : A -> bool) l, (forall x, In x l -> p x = true -> q x = true) -> length (filter p l) <= length (filter q l).
Proof.
  induction l as [ | x l IH]; intros H; [ reflexivity | ]. cbn [filter]. assert (Hl : length (filter p l) <= length (filter q l)) by (apply IH; intros y Hy; apply H; right; exact Hy).
  destruct (p x) eqn:E; [ rewrite (H x (or_introl eq_refl) E); cbn; lia | destruct (q x); cbn; lia ].
Qed.
Lemma filter_lt : forall (A : Type) (p q : A -> bool) l x, (forall y, In y l -> p y = true -> q y = true) -> In x l -> p x = false -> q x = true -> length (filter p l) < length (filter q l).
Proof.
  induction l as [ | y l IH]; intros x H Hx Hp Hq; [ contradiction | ]. cbn [filter].
  assert (Hl : length (filter p l) <= length (filter q l)) by (apply filter_le; intros z Hz; apply H; right; exact Hz).
  destruct Hx as [Hx | Hx].
  - subst y. rewrite Hp, Hq. cbn. lia.
  - assert (Hlt : length (filter p l) < length (filter q l)) by (apply (IH x); [ intros z Hz; apply H; right; exact Hz | exact Hx | exact Hp | exact Hq ]).
    destruct (p y) eqn:E; [ rewrite (H y (or_introl eq_refl) E); cbn; lia | destruct (q y); cbn; lia ].
Qed.
Lemma absent_le : forall st st', (forall w, has w st = true -> has w st' = true) -> absent st' <= absent st.
Proof. intros st st' H. apply filter_le. intros f _ Hf. apply negb_true_iff in Hf. apply negb_true_iff. destruct (has (f_name f) st) eqn:E; [ rewrite (H _ E) in Hf; discriminate | reflexivity ]. Qed.
Lemma absent_put : forall st m f l, find_file m code = Some f -> has m st = false -> absent (put m l st) < absent st.
Proof.
  intros st m f l Hf Hm. destruct (find_file_name m code f Hf) as [Hn Hi]. unfold absent.
  apply (filter_lt _ _ _ code f).
  - intros y _ Hy. apply negb_true_iff in Hy. apply negb_true_iff. destruct (Pos.eq_dec (f_name y) m) as [E | E]; [ rewrite E; exact Hm | rewrite has_put_other in Hy by exact E; exact Hy ].
  - exact Hi.
  - rewrite Hn, has_put_same. reflexivity.
  - rewrite Hn, Hm. reflexivity.
Qed.
Definition shallow (m : name) : bool :=
  match package_of m with None => true | Some p => match package_of p with None => true | Some q => match package_of q with None => true | Some r => match package_of r with None => true | Some _ => false end end end end.
Lemma all_shallow : forallb (fun f => shallow (f_name f)) code = true.
Proof. vm_compute. reflexivity. Qed.
Lemma depth_small : forall m, depth 4 m <= 3.
Proof.
  intros m. assert (H : shallow m = true).
  { destruct (find_file m code) as [f | ] eqn:Ef.
    - destruct (find_file_name m code f Ef) as [Hn Hi]. rewrite <- Hn. exact (proj1 (forallb_forall _ _) all_shallow f Hi).
    - unfold shallow, package_of at 1. rewrite Ef. reflexivity. }
  unfold shallow in H. cbn [depth]. destruct (package_of m) as [p | ]; [ | lia ]. destruct (package_of p) as [q | ]; [ | lia ].
  destruct (package_of q) as [r | ]; [ | lia ]. destruct (package_of r); [ discriminate | lia ].
Qed.
Lemma depth_package : forall m p, package_of m = Some p -> depth 4 m = S (depth 4 p).
Proof.
  intros m p H. pose proof (depth_small m) as A. revert A.
  change (depth 4 m) with (match package_of m with Some p => S (depth 3 p) | None => O end). rewrite H. intros A. f_equal.
  assert (G : forall k x, depth k x < k -> depth k x = depth (S k) x).
  { clear. induction k as [ | k IH]; intros x Hx; [ lia | ]. change (depth (S (S k)) x) with (match package_of x with Some p => S (depth (S k) p) | None => O end).
    change (depth (S k) x) with (match package_of x with Some p => S (depth k p) | None => O end) in *.
    destruct (package_of x); [ f_equal; apply IH; lia | reflexivity ]. }
  apply G. lia.
Qed.
