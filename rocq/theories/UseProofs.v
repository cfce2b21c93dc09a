(** * UseProofs: the functions find their names. *)
From Coq Require Import List Bool PArith Arith Lia.
From Verif Require Import Platform ImpNames ImpModel ImpCode ImpSpec ImpCheck ImpProofs ImpProofs2 ImpProofs3 UseModel UseCode UseSpec.
Import ListNotations.

(** ** What a function finds depends on the names it reads only *)
Section Same.
  Context (h : host) (P : name -> bool) (a b : ns) (H : forall n, P n = true -> look n a = look n b).
  Fixpoint all_names (s : fstmt) : list name :=
    match s with FReads l => l | FIf e x y => bnames e ++ flat_map all_names x ++ flat_map all_names y end.
  Lemma has_same : forall n, P n = true -> has n a = has n b.
  Proof. intros n Hn. unfold has. rewrite (H n Hn). reflexivity. Qed.
  Lemma beval_same : forall e, forallb P (bnames e) = true -> beval h e a = beval h e b.
  Proof.
    induction e as [ c | n | e IH | x IHx y IHy | uses f ]; cbn [bnames beval]; intros Hp.
    - reflexivity.
    - cbn [forallb] in Hp. apply andb_prop in Hp. rewrite (H n (proj1 Hp)). reflexivity.
    - rewrite (IH Hp). reflexivity.
    - rewrite forallb_app in Hp. apply andb_prop in Hp. rewrite (IHx (proj1 Hp)), (IHy (proj2 Hp)). reflexivity.
    - assert (E : forallb (fun n => has n a) uses = forallb (fun n => has n b) uses).
      { clear f. induction uses as [ | n l IH ]; [ reflexivity | ]. cbn [forallb] in *. apply andb_prop in Hp. rewrite (has_same n (proj1 Hp)), (IH (proj2 Hp)). reflexivity. }
      rewrite E. reflexivity.
  Qed.
  Lemma absent_same : forall l, forallb P l = true -> absent_of a l = absent_of b l.
  Proof.
    induction l as [ | n l IH ]; intros Hp; [ reflexivity | ]. cbn [forallb] in Hp. apply andb_prop in Hp. unfold absent_of in *. cbn [filter]. rewrite (has_same n (proj1 Hp)), (IH (proj2 Hp)). reflexivity.
  Qed.
  Fixpoint missing_same (s : fstmt) {struct s} : forallb P (all_names s) = true -> missing h a s = missing h b s.
  Proof.
    destruct s as [ l | e x y ]; intros Hp; cbn [missing all_names] in *; [ exact (absent_same l Hp) | ].
    rewrite !forallb_app in Hp. apply andb_prop in Hp. destruct Hp as [H1 H2]. apply andb_prop in H2. destruct H2 as [H2 H3].
    rewrite (beval_same e H1).
    assert (Hx : flat_map (missing h a) x = flat_map (missing h b) x).
    { clear -missing_same H2. induction x as [ | z l IH ]; [ reflexivity | ]. cbn [flat_map] in *. rewrite forallb_app in H2. apply andb_prop in H2. rewrite (missing_same z (proj1 H2)), (IH (proj2 H2)). reflexivity. }
    assert (Hy : flat_map (missing h a) y = flat_map (missing h b) y).
    { clear -missing_same H3. induction y as [ | z l IH ]; [ reflexivity | ]. cbn [flat_map] in *. rewrite forallb_app in H3. apply andb_prop in H3. rewrite (missing_same z (proj1 H3)), (IH (proj2 H3)). reflexivity. }
    rewrite (absent_same _ H1). f_equal. destruct (beval h e b) as [[ | ] | ]; [ exact Hx | exact Hy | reflexivity ].
  Qed.
  Lemma missing_in_same : forall f, forallb P (flat_map all_names (b_parts f)) = true -> missing_in h a f = missing_in h b f.
  Proof.
    intros f. unfold missing_in. generalize (b_parts f). induction l as [ | x l IH ]; intros Hp; [ reflexivity | ]. cbn [flat_map] in *. rewrite forallb_app in Hp. apply andb_prop in Hp.
    rewrite (missing_same x (proj1 Hp)), (IH (proj2 Hp)). reflexivity.
  Qed.
  Lemma is_defined_same : forall f, forallb P (flat_map bnames (b_when f)) = true -> is_defined h a f = is_defined h b f.
  Proof.
    intros f. unfold is_defined. generalize (b_when f). induction l as [ | x l IH ]; intros Hp; [ reflexivity | ]. cbn [flat_map forallb] in *. rewrite forallb_app in Hp. apply andb_prop in Hp.
    rewrite (beval_same x (proj1 Hp)), (IH (proj2 Hp)). reflexivity.
  Qed.
End Same.
Lemma names_eqb_eq : forall a b, names_eqb a b = true -> a = b.
Proof.
  induction a as [ | x a IH ]; intros [ | y b ] H; cbn [names_eqb] in H; try discriminate; [ reflexivity | ]. apply andb_prop in H. destruct H as [E H]. apply Pos.eqb_eq in E. rewrite E, (IH b H). reflexivity.
Qed.

(** ** No name is that of a submodule *)
Definition read_by (f : fbody) : list name := b_name f :: flat_map bnames (b_when f) ++ flat_map all_names (b_parts f).
Lemma reads_plain : forallb (fun mf => forallb (fun f => forallb (fun n => plain_b (fst mf, n)) (read_by f)) (snd mf)) functions = true.
Proof. vm_compute. reflexivity. Qed.
Lemma functions_ours : forallb (fun mf => ours code (fst mf)) functions = true.
Proof. vm_compute. reflexivity. Qed.

Section Uses.
  Context (h : host) (fuel : nat) (l : list name) (m : name) (fs : list fbody).
  Context (Hs : supported (h_platform h) = true) (Hf : enough fuel) (Hl : forallb (ours code) l = true) (Hm : In m l) (Hok : expected h m = IOk tt) (Hfs : In (m, fs) functions).
  Definition globals : ns := names_of m (fst (import_all h code fuel l [])).
  Lemma plain_look : forall n, plain_b (m, n) = true -> look n globals = look n (tn (T0 h) m).
  Proof.
    intros n Hn. destruct (names_after h fuel l m Hs Hf Hl Hm Hok) as [_ B]. apply B. unfold plain_b in Hn. cbn [fst snd] in Hn. unfold plain. destruct (submodule m n code); [ discriminate | reflexivity ].
  Qed.
  Lemma function_facts : forall f, In f fs ->
    has (b_name f) globals = has (b_name f) (tn (T0 h) m) /\ is_defined h globals f = is_defined h (tn (T0 h) m) f /\ missing_in h globals f = missing_in h (tn (T0 h) m) f.
  Proof.
    intros f Hi. pose proof (proj1 (forallb_forall _ _) reads_plain _ Hfs) as A. cbn [fst snd] in A. pose proof (proj1 (forallb_forall _ _) A f Hi) as B. clear A.
    unfold read_by in B. cbn [forallb] in B. apply andb_prop in B. destruct B as [B1 B]. rewrite forallb_app in B. apply andb_prop in B. destruct B as [B2 B3].
    split; [ exact (has_same (fun n => plain_b (m, n)) _ _ plain_look _ B1) | ].
    split; [ exact (is_defined_same h (fun n => plain_b (m, n)) _ _ plain_look f B2) | exact (missing_in_same h (fun n => plain_b (m, n)) _ _ plain_look f B3) ].
  Qed.
  Lemma table_facts : forall f, In f fs ->
    (is_defined h (tn (T0 h) m) f = true -> missing_in h (tn (T0 h) m) f = expected_missing (h_platform h) m (b_name f))
    /\ (b_method f = false -> has (b_name f) (tn (T0 h) m) = existsb (fun g => Pos.eqb (b_name g) (b_name f) && is_defined h (tn (T0 h) m) g) fs).
  Proof.
    intros f Hi. destruct (facts_parts h Hs) as [_ [_ [_ [_ [_ U]]]]]. unfold uses_ok in U. pose proof (proj1 (forallb_forall _ _) U _ Hfs) as A. clear U. cbn [fst snd] in A. rewrite Hok in A. cbv zeta in A.
    pose proof (proj1 (forallb_forall _ _) A f Hi) as B. clear A. apply andb_prop in B. destruct B as [B1 B2]. split.
    - intros D. rewrite D in B1. cbn [negb orb] in B1. exact (names_eqb_eq _ _ B1).
    - intros D. rewrite D in B2. cbn [orb] in B2. apply eqb_prop in B2. exact B2.
  Qed.
  Lemma missing_exact : forall f, In f fs -> is_defined h globals f = true -> missing_in h globals f = expected_missing (h_platform h) m (b_name f).
  Proof. intros f Hi D. destruct (function_facts f Hi) as [_ [D' M]]. rewrite M. apply (table_facts f Hi). rewrite <- D'. exact D. Qed.
  Lemma function_there : forall f, In f fs -> b_method f = false -> (has (b_name f) globals = true <-> defined_as h globals fs (b_name f)).
  Proof.
    intros f Hi Hb. destruct (function_facts f Hi) as [E _]. destruct (table_facts f Hi) as [_ B]. rewrite E, (B Hb), existsb_exists. unfold defined_as. split.
    - intros [g [Hg G]]. apply andb_prop in G. destruct G as [G1 G2]. apply Pos.eqb_eq in G1. exists g. split; [ exact Hg | ]. split; [ exact G1 | ]. rewrite (proj1 (proj2 (function_facts g Hg))). exact G2.
    - intros [g [Hg [G1 G2]]]. exists g. split; [ exact Hg | ]. rewrite G1, Pos.eqb_refl. rewrite <- (proj1 (proj2 (function_facts g Hg))). exact G2.
  Qed.
End Uses.

(** ** Reads *)
Lemma absent_in : forall g n l, In n (absent_of g l) <-> In n l /\ has n g = false.
Proof. intros g n l. unfold absent_of. rewrite filter_In, negb_true_iff. reflexivity. Qed.
Lemma reads_missing : forall h g n l, reads h g n l -> has n g = false -> In n (flat_map (missing h g) l).
Proof.
  intros h g n l R Hn. induction R as [ names rest Hi | e yes no rest Hi | e yes no rest He R IH | e yes no rest He R IH | s rest R IH ]; cbn [flat_map missing]; rewrite ?in_app_iff.
  - left. apply absent_in. tauto.
  - left. left. apply absent_in. tauto.
  - left. right. rewrite He. exact IH.
  - left. right. rewrite He. exact IH.
  - right. exact IH.
Qed.
Section Reads.
  Context (h : host) (g : ns) (n : name).
  Fixpoint missing_reads (s : fstmt) : In n (missing h g s) -> has n g = false /\ forall rest, reads h g n (s :: rest).
  Proof.
    destruct s as [ l | e yes no ]; cbn [missing]; intros H.
    - apply absent_in in H. destruct H as [H1 H2]. split; [ exact H2 | ]. intros rest. apply reads_here, H1.
    - apply in_app_or in H. destruct H as [H | H]; [ apply absent_in in H; destruct H as [H1 H2]; split; [ exact H2 | intros rest; apply reads_condition, H1 ] | ].
      destruct (beval h e g) as [[ | ] | ] eqn:E; [ | | destruct H ].
      + assert (G : has n g = false /\ reads h g n yes).
        { clear -missing_reads H. induction yes as [ | z l IH ]; [ destruct H | ]. cbn [flat_map] in H. apply in_app_or in H. destruct H as [H | H].
          - destruct (missing_reads z H) as [A B]. split; [ exact A | apply B ].
          - destruct (IH H) as [A B]. split; [ exact A | apply reads_later, B ]. }
        split; [ apply G | ]. intros rest. apply reads_yes; [ exact E | apply G ].
      + assert (G : has n g = false /\ reads h g n no).
        { clear -missing_reads H. induction no as [ | z l IH ]; [ destruct H | ]. cbn [flat_map] in H. apply in_app_or in H. destruct H as [H | H].
          - destruct (missing_reads z H) as [A B]. split; [ exact A | apply B ].
          - destruct (IH H) as [A B]. split; [ exact A | apply reads_later, B ]. }
        split; [ apply G | ]. intros rest. apply reads_no; [ exact E | apply G ].
  Qed.
  Lemma missing_reads_list : forall l, In n (flat_map (missing h g) l) -> has n g = false /\ reads h g n l.
  Proof.
    induction l as [ | z l IH ]; intros H; [ destruct H | ]. cbn [flat_map] in H. apply in_app_or in H. destruct H as [H | H].
    - destruct (missing_reads z H) as [A B]. split; [ exact A | apply B ].
    - destruct (IH H) as [A B]. split; [ exact A | apply reads_later, B ].
  Qed.
End Reads.

(** ** The theorems *)
Lemma exact_names : forall h fuel l m fs f n, supported (h_platform h) = true -> enough fuel -> forallb (ours code) l = true -> In m l -> expected h m = IOk tt ->
  In (m, fs) functions -> In f fs ->
  let globals := names_of m (fst (import_all h code fuel l [])) in
  is_defined h globals f = true ->
  (reads h globals n (b_parts f) /\ has n globals = false <-> In n (expected_missing (h_platform h) m (b_name f))).
Proof.
  intros h fuel l m fs f n Hs Hf Hl Hm Hok Hfs Hi g D. pose proof (missing_exact h fuel l m fs Hs Hf Hl Hm Hok Hfs f Hi D) as E. fold g in D. unfold globals in E. fold g in E. rewrite <- E. unfold missing_in. split.
  - intros [R A]. exact (reads_missing h g n _ R A).
  - intros R. destruct (missing_reads_list h g n _ R) as [A B]. split; [ exact B | exact A ].
Qed.
Lemma expected_linux : forall p m f, p_os p = Linux -> expected_missing p m f = [].
Proof. intros p m f E. unfold expected_missing, running_linux. rewrite E. rewrite !andb_false_r. reflexivity. Qed.
Lemma linux_names : forall h fuel l m fs f n, supported (h_platform h) = true -> p_os (h_platform h) = Linux -> enough fuel -> forallb (ours code) l = true -> In m l -> expected h m = IOk tt ->
  In (m, fs) functions -> In f fs ->
  let globals := names_of m (fst (import_all h code fuel l [])) in
  is_defined h globals f = true -> reads h globals n (b_parts f) -> has n globals = true.
Proof.
  intros h fuel l m fs f n Hs Hx Hf Hl Hm Hok Hfs Hi g D R. destruct (has n g) eqn:E; [ reflexivity | ].
  pose proof (proj1 (exact_names h fuel l m fs f n Hs Hf Hl Hm Hok Hfs Hi D) (conj R E)) as H. rewrite (expected_linux _ _ _ Hx) in H. destruct H.
Qed.
Lemma names_there : forall h fuel l m fs f, supported (h_platform h) = true -> enough fuel -> forallb (ours code) l = true -> In m l -> expected h m = IOk tt ->
  In (m, fs) functions -> In f fs -> b_method f = false ->
  let globals := names_of m (fst (import_all h code fuel l [])) in
  (has (b_name f) globals = true <-> defined_as h globals fs (b_name f)).
Proof. intros h fuel l m fs f Hs Hf Hl Hm Hok Hfs Hi Hb. exact (function_there h fuel l m fs Hs Hf Hl Hm Hok Hfs f Hi Hb). Qed.
(** ** Where it fails *)
Definition openbsd_host : host := Host (Platform OpenBSD X86_64 false true) false false false.
Lemma openbsd_syscall : forall fuel l, enough fuel -> forallb (ours code) l = true -> In "ptrace.binding.func"%name l ->
  let globals := names_of "ptrace.binding.func"%name (fst (import_all openbsd_host code fuel l [])) in
  has "ptrace_syscall"%name globals = true /\ exists f, In f f_ptrace_binding_func /\ b_name f = "ptrace_syscall"%name /\ is_defined openbsd_host globals f = true
    /\ reads openbsd_host globals "PTRACE_SYSCALL"%name (b_parts f) /\ has "PTRACE_SYSCALL"%name globals = false.
Proof.
  intros fuel l Hf Hl Hm g.
  assert (Hs : supported (h_platform openbsd_host) = true) by reflexivity.
  assert (Hok : expected openbsd_host "ptrace.binding.func"%name = IOk tt) by reflexivity.
  assert (Hfs : In ("ptrace.binding.func"%name, f_ptrace_binding_func) functions) by (cbv [functions In]; tauto).
  assert (X : exists f, In f f_ptrace_binding_func /\ b_name f = "ptrace_syscall"%name /\ b_method f = false /\ is_defined openbsd_host (tn (T0 openbsd_host) "ptrace.binding.func"%name) f = true).
  { assert (Y : existsb (fun f => Pos.eqb (b_name f) "ptrace_syscall"%name && negb (b_method f) && is_defined openbsd_host (tn (T0 openbsd_host) "ptrace.binding.func"%name) f) f_ptrace_binding_func = true) by (vm_compute; reflexivity).
    apply existsb_exists in Y. destruct Y as [f [Hi Y]]. apply andb_prop in Y. destruct Y as [Y Y3]. apply andb_prop in Y. destruct Y as [Y1 Y2]. exists f.
    split; [ exact Hi | ]. split; [ apply Pos.eqb_eq, Y1 | ]. split; [ apply negb_true_iff, Y2 | exact Y3 ]. }
  destruct X as [f [Hi [Hn [Hb D]]]].
  assert (D' : is_defined openbsd_host g f = true) by (destruct (function_facts openbsd_host fuel l _ _ Hs Hf Hl Hm Hok Hfs f Hi) as [_ [E _]]; unfold globals in E; fold g in E; rewrite E; exact D).
  split.
  - rewrite <- Hn. apply (names_there openbsd_host fuel l _ _ f Hs Hf Hl Hm Hok Hfs Hi Hb). exists f. split; [ exact Hi | ]. split; [ reflexivity | exact D' ].
  - exists f. split; [ exact Hi | ]. split; [ exact Hn | ]. split; [ exact D' | ].
    apply (exact_names openbsd_host fuel l _ _ f _ Hs Hf Hl Hm Hok Hfs Hi D'). rewrite Hn. left. reflexivity.
Qed.
