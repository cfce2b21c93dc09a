(** * PeerProofs: proofs of C141. *)
From Coq Require Import List Bool PArith.
From Verif Require Import PyBase PyFacts AttrNames AttrModel AttrCode AttrSpec AttrCheck AttrProofs AttrContracts AttrProofs2 AttrProofs3 PeerModel PeerCode PeerSpec.
Import ListNotations.
Open Scope attr_scope.

Definition is_ab (d c : attr) : bool := existsb (fun k => Pos.eqb (c_name k) c) (parents classes d).
Lemma is_ab_spec : forall d c, is_a d c <-> is_ab d c = true.
Proof.
  intros d c. unfold is_a, is_ab. rewrite existsb_exists, in_map_iff. split.
  - intros (k & E & H). exists k. split; [ exact H | ]. subst c. apply Pos.eqb_refl.
  - intros (k & H & E). exists k. split; [ exact (proj1 (Pos.eqb_eq _ _) E) | exact H ].
Qed.
Definition sure (a b : bool) (d n : attr) (more : env) : bool :=
  let k := [("HAS_PROC", a); ("HAS_PTRACE_IO", b)] in there (to_flags k) classes d n (more ++ full (contracts_of a b d) d).
Lemma sure_there : forall flags d n more e, In d objects -> sure (flags "HAS_PROC") (flags "HAS_PTRACE_IO") d n more = true -> alive flags classes d e ->
  there flags classes d n (more ++ e) = true.
Proof.
  intros flags d n more e H Q He. destruct (object_checked flags d H) as [O N].
  rewrite (there_same (flags_known flags) flags _ _ _ _ (flags_agree flags) (decided_c _ _ _ _ (object_class _ _ _ _ O))).
  eapply there_incl; [ | exact Q ]. apply incl_app; [ apply incl_appl, incl_refl | apply incl_appr; exact (alive_incl _ _ _ _ _ (flags_agree flags) O N e He) ].
Qed.
Lemma peers_checked : forall a b, forallb (fun x => forallb (fun d => negb (is_ab d (fst x)) || sure a b d (snd x) []) objects) peers = true.
Proof. intros [] []; vm_compute; reflexivity. Qed.
Lemma peers_there : forall flags c a d e, In (c, a) peers -> In d objects -> is_a d c -> alive flags classes d e -> there flags classes d a e = true.
Proof.
  intros flags c a d e H Hd I He. assert (Q := peers_checked (flags "HAS_PROC") (flags "HAS_PTRACE_IO")). rewrite forallb_forall in Q. specialize (Q _ H).
  rewrite forallb_forall in Q. specialize (Q d Hd). cbn [fst snd] in Q. apply is_ab_spec in I. rewrite I in Q. exact (sure_there flags d a [] e Hd Q He).
Qed.
Lemma peers_known : forall c a, In (c, a) peers -> In c objects /\ is_a c c.
Proof.
  assert (Q : forallb (fun x => mem (fst x) objects && is_ab (fst x) (fst x)) peers = true) by (vm_compute; reflexivity).
  intros c a H. rewrite forallb_forall in Q. specialize (Q _ H). cbn [fst] in Q. apply andb_true_iff in Q as [Q1 Q2]. split; [ apply mem_In; exact Q1 | apply is_ab_spec; exact Q2 ].
Qed.
Lemma function_checked : forall a b, forallb (fun n => sure a b "PtraceSyscall" n [] && sure a b "FunctionCall" n ["process"]) function_reads = true.
Proof. intros [] []; vm_compute; reflexivity. Qed.
Lemma function_there : forall flags a e, In a function_reads ->
  (alive flags classes "PtraceSyscall" e -> there flags classes "PtraceSyscall" a e = true)
  /\ (alive flags classes "FunctionCall" e -> there flags classes "FunctionCall" a ("process" :: e) = true).
Proof.
  intros flags a e H. assert (Q := function_checked (flags "HAS_PROC") (flags "HAS_PTRACE_IO")). rewrite forallb_forall in Q. specialize (Q _ H). apply andb_true_iff in Q as [Q1 Q2].
  split; intros He.
  - refine (sure_there flags "PtraceSyscall" a [] e _ Q1 He). apply mem_In. vm_compute. reflexivity.
  - refine (sure_there flags "FunctionCall" a ["process"] e _ Q2 He). apply mem_In. vm_compute. reflexivity.
Qed.

Definition in_texts (t : text) (l : list text) : bool := existsb (text_eqb t) l.
Lemma in_texts_spec : forall t l, in_texts t l = true -> In t l.
Proof. intros t l H. apply existsb_exists in H as (x & H & E). apply text_eqb_eq in E. subst. exact H. Qed.
Lemma options_there : forall p c l o, In p programs -> In (c, l) option_reads -> is_a p c -> In o l -> In o (values (options_of p)).
Proof.
  assert (Q : forallb (fun p => forallb (fun x => negb (is_ab p (fst x)) || forallb (fun o => in_texts o (values (options_of p))) (snd x)) option_reads) programs = true) by (vm_compute; reflexivity).
  intros p c l o Hp H I Ho. rewrite forallb_forall in Q. specialize (Q p Hp). rewrite forallb_forall in Q. specialize (Q _ H). cbn [fst snd] in Q. apply is_ab_spec in I.
  rewrite I in Q. cbn [negb orb] in Q. rewrite forallb_forall in Q. exact (in_texts_spec _ _ (Q o Ho)).
Qed.
Lemma options_used : forall p o, In p programs -> In o (values (options_of p)) -> exists c l, In (c, l) option_reads /\ is_a p c /\ In o l.
Proof.
  assert (Q : forallb (fun p => forallb (fun o => existsb (fun x => is_ab p (fst x) && in_texts o (snd x)) option_reads) (values (options_of p))) programs = true) by (vm_compute; reflexivity).
  intros p o Hp H. rewrite forallb_forall in Q. specialize (Q p Hp). rewrite forallb_forall in Q. specialize (Q o H). apply existsb_exists in Q as ((c & l) & H1 & H2).
  cbn [fst snd] in H2. apply andb_true_iff in H2 as [H2 H3]. exists c, l. split; [ exact H1 | split; [ apply is_ab_spec; exact H2 | exact (in_texts_spec _ _ H3) ] ].
Qed.
Lemma runtests_both : forall o, In o runtests_reads <-> In o (values runtests_options).
Proof.
  assert (Q1 : forallb (fun o => in_texts o (values runtests_options)) runtests_reads = true) by (vm_compute; reflexivity).
  assert (Q2 : forallb (fun o => in_texts o runtests_reads) (values runtests_options) = true) by (vm_compute; reflexivity).
  rewrite forallb_forall in Q1, Q2. intros o. split; intros H; apply in_texts_spec; [ exact (Q1 o H) | exact (Q2 o H) ].
Qed.
Lemma names_differ : forall p, In p programs -> NoDup (values (options_of p)).
Proof.
  intros p [ <- | [ <- | [ <- | [] ] ] ].
  all: vm_compute; repeat (constructor; [ cbn [In]; intros H; repeat (destruct H as [ H | H ]; [ discriminate | ]); exact H | ]); constructor.
Qed.
