(** * ImpProofs3: all supported hosts pass the check. *)
From Coq Require Import List Bool PArith Arith Lia.
From Verif Require Import Platform ImpNames ImpModel ImpCode ImpSpec ImpCheck ImpProofs ImpProofs2 UseModel UseCode UseSpec.
Import ListNotations.
Open Scope nat_scope.

Fixpoint names_eqb (a b : list name) : bool := match a, b with [], [] => true | x :: a, y :: b => Pos.eqb x y && names_eqb a b | _, _ => false end.
Definition uses_ok (h : host) (T : table) : bool :=
  forallb (fun mf => match expected h (fst mf) with
    | IErr _ => true
    | IOk _ =>
        let l := tn T (fst mf) in
        forallb (fun f => (negb (is_defined h l f) || names_eqb (missing_in h l f) (expected_missing (h_platform h) (fst mf) (b_name f)))
          && (b_method f || Bool.eqb (has (b_name f) l) (existsb (fun g => Pos.eqb (b_name g) (b_name f) && is_defined h l g) (snd mf)))) (snd mf)
    end) functions.
Definition facts (h : host) : bool :=
  let T := build h ordered [] in
  check_with h T
  && uses_ok h T
  && forallb (fun f => res_eqb (tout T (f_name f)) (expected h (f_name f))) code
  && forallb (fun x => let '(m, n, b) := x in match look n (tn T m) with Some (VBool c) => Bool.eqb b c | _ => false end) (flags h)
  && forallb (fun x => let '(m, l, b) := x in forallb (fun n => Bool.eqb (has n (tn T m)) b) l) (exports h)
  && match look "HAS_DISASSEMBLER"%name (tn T "ptrace.disasm"%name) with Some (VBool c) => Bool.eqb (with_disassembler h) c | _ => false end.
Section Hosts.
  Context (F : host -> bool).
  Definition holds_of (o : os) (c : cpu) (big : bool) : bool :=
    forallb (fun b => forallb (fun d => forallb (fun p => forallb (fun l => F (Host (Platform o c big b) d p l)) [true; false]) [true; false]) [true; false]) [true; false].
  Lemma holds_of_in : forall o c big b d p l, holds_of o c big = true -> F (Host (Platform o c big b) d p l) = true.
  Proof.
    intros o c big b d p l H. unfold holds_of in H.
    assert (G : forall (f : bool -> bool) x, forallb f [true; false] = true -> f x = true).
    { intros f x Hx. apply (proj1 (forallb_forall f [true; false]) Hx). destruct x; [ left | right; left ]; reflexivity. }
    apply (G _ b) in H. cbv beta in H. apply (G _ d) in H. cbv beta in H. apply (G _ p) in H. cbv beta in H. apply (G _ l) in H. exact H.
  Qed.
  Definition most_cpus : list cpu := [PPC32; PPC64; I386; X86_64; AARCH64; RISCV32; RISCV64].
  Lemma supported_holds :
    (forall big, forallb (fun c => holds_of Linux c big) most_cpus = true) ->
    (forall big, forallb (fun c => holds_of FreeBSD c big) (ARM32 :: most_cpus) = true) ->
    (forall big, forallb (fun c => holds_of OpenBSD c big) (ARM32 :: most_cpus) = true) ->
    (forall big, forallb (fun c => holds_of MacOSX c big) (ARM32 :: most_cpus) = true) ->
    forall h, supported (h_platform h) = true -> F h = true.
  Proof.
    intros HL HF HO HM [[o c big b] d p l] H. cbn [h_platform] in H. apply holds_of_in. unfold supported in H. cbn [p_os p_cpu] in H.
    destruct o; [ pose proof (HL big) as A | pose proof (HF big) as A | pose proof (HO big) as A | pose proof (HM big) as A ];
      destruct c; try discriminate; (apply (proj1 (forallb_forall _ _) A); cbn; tauto).
  Qed.
End Hosts.
Lemma facts_linux : forall big, forallb (fun c => holds_of facts Linux c big) most_cpus = true.
Proof. intros big. vm_compute. reflexivity. Qed.
Lemma facts_freebsd : forall big, forallb (fun c => holds_of facts FreeBSD c big) (ARM32 :: most_cpus) = true.
Proof. intros big. vm_compute. reflexivity. Qed.
Lemma facts_openbsd : forall big, forallb (fun c => holds_of facts OpenBSD c big) (ARM32 :: most_cpus) = true.
Proof. intros big. vm_compute. reflexivity. Qed.
Lemma facts_macosx : forall big, forallb (fun c => holds_of facts MacOSX c big) (ARM32 :: most_cpus) = true.
Proof. intros big. vm_compute. reflexivity. Qed.
Lemma supported_facts : forall h, supported (h_platform h) = true -> facts h = true.
Proof. exact (supported_holds facts facts_linux facts_freebsd facts_openbsd facts_macosx). Qed.

Section Facts.
  Context (h : host) (Hs : supported (h_platform h) = true).
  Definition T0 : table := build h ordered [].
  Lemma facts_parts :
    check_with h T0 = true /\ (forall m, ours code m = true -> tout T0 m = expected h m)
    /\ (forall m n b, In (m, n, b) (flags h) -> look n (tn T0 m) = Some (VBool b))
    /\ (forall m l n b, In (m, l, b) (exports h) -> In n l -> has n (tn T0 m) = b)
    /\ look "HAS_DISASSEMBLER"%name (tn T0 "ptrace.disasm"%name) = Some (VBool (with_disassembler h))
    /\ uses_ok h T0 = true.
  Proof.
    pose proof (supported_facts h Hs) as F. unfold facts in F. fold T0 in F. cbv zeta in F.
    apply andb_prop in F. destruct F as [F F5]. apply andb_prop in F. destruct F as [F F4]. apply andb_prop in F. destruct F as [F F3]. apply andb_prop in F. destruct F as [F F2]. apply andb_prop in F. destruct F as [F1 F6].
    split; [ exact F1 | ]. split; [ | split; [ | split; [ | split ] ] ].
    - intros m Ho. destruct (ours_file m Ho) as [f Hf]. destruct (find_file_name m code f Hf) as [Hn Hi]. pose proof (proj1 (forallb_forall _ _) F2 f Hi) as A. cbv beta in A. rewrite Hn in A.
      unfold res_eqb in A. destruct (tout T0 m) as [[] | e], (expected h m) as [[] | e']; try discriminate; [ reflexivity | apply iexn_eqb_eq in A; congruence ].
    - intros m n b Hi. pose proof (proj1 (forallb_forall _ _) F3 _ Hi) as A. cbv beta iota in A. destruct (look n (tn T0 m)) as [[c | ] | ]; try discriminate. apply eqb_prop in A. congruence.
    - intros m l n b Hi Hn. pose proof (proj1 (forallb_forall _ _) F4 _ Hi) as A. cbv beta iota in A. pose proof (proj1 (forallb_forall _ _) A n Hn) as B. apply eqb_prop in B. exact B.
    - destruct (look "HAS_DISASSEMBLER"%name (tn T0 "ptrace.disasm"%name)) as [[c | ] | ]; try discriminate. apply eqb_prop in F5. congruence.
    - exact F6.
  Qed.
End Facts.

(** ** Sequences of imports *)
Definition enough (fuel : nat) : Prop := 4 * length code + 4 <= fuel.
Lemma any_order : forall h fuel l, supported (h_platform h) = true -> enough fuel -> forallb (ours code) l = true ->
  snd (import_all h code fuel l []) = map (expected h) l.
Proof.
  intros h fuel l Hs Hf Hl. destruct (facts_parts h Hs) as [Hc [He _]].
  destruct (import_all_settled h (T0 h) Hc fuel l [] Hf (settled_empty (T0 h)) Hl) as [st' [E _]]. rewrite E. cbn [snd].
  apply map_ext_in. intros m Hm. apply He. exact (proj1 (forallb_forall _ _) Hl m Hm).
Qed.
Lemma names_after : forall h fuel l m, supported (h_platform h) = true -> enough fuel -> forallb (ours code) l = true -> In m l -> expected h m = IOk tt ->
  has m (fst (import_all h code fuel l [])) = true /\ agree m (names_of m (fst (import_all h code fuel l []))) (tn (T0 h) m).
Proof.
  intros h fuel l m Hs Hf Hl Hm Hok. destruct (facts_parts h Hs) as [Hc [He _]].
  destruct (import_all_settled h (T0 h) Hc fuel l [] Hf (settled_empty (T0 h)) Hl) as [st' [E [[_ [_ S]] [_ H]]]]. rewrite E. cbn [fst].
  assert (Hh : has m st' = true) by (apply H; [ exact Hm | rewrite (He m (proj1 (forallb_forall _ _) Hl m Hm)); exact Hok ]). split; [ exact Hh | exact (S m Hh) ].
Qed.
Lemma names_alone : forall h fuel l m, supported (h_platform h) = true -> enough fuel -> forallb (ours code) l = true -> In m l -> expected h m = IOk tt ->
  has m (fst (import_all h code fuel l [])) = true
  /\ forall n, submodule m n code = None -> look n (names_of m (fst (import_all h code fuel l []))) = look n (names_of m (fst (import_module h code fuel m []))).
Proof.
  intros h fuel l m Hs Hf Hl Hm Hok. destruct (names_after h fuel l m Hs Hf Hl Hm Hok) as [A B]. split; [ exact A | ]. intros n Hn. rewrite (B n Hn).
  assert (Hl1 : forallb (ours code) [m] = true) by (cbn [forallb]; rewrite (proj1 (forallb_forall _ _) Hl m Hm); reflexivity).
  destruct (names_after h fuel [m] m Hs Hf Hl1 (or_introl eq_refl) Hok) as [_ C]. rewrite <- (C n Hn). cbn [import_all]. destruct (import_module h code fuel m []) as [st r]. reflexivity.
Qed.
Definition plain_b (x : name * name) : bool := match submodule (fst x) (snd x) code with None => true | Some _ => false end.
Lemma flag_values : forall h fuel l m n b, supported (h_platform h) = true -> enough fuel -> forallb (ours code) l = true -> In m l -> In (m, n, b) (flags h) ->
  look n (names_of m (fst (import_all h code fuel l []))) = Some (VBool b).
Proof.
  intros h fuel l m n b Hs Hf Hl Hm Hi. destruct (facts_parts h Hs) as [_ [_ [F _]]].
  assert (Hp : expected h m = IOk tt /\ submodule m n code = None).
  { assert (G : forallb (fun x => let '(m, n, _) := x in negb (Pos.eqb m "ptrace.pydistorm"%name) && plain_b (m, n)) (flags h) = true) by (vm_compute; reflexivity).
    pose proof (proj1 (forallb_forall _ _) G _ Hi) as A. cbv beta iota in A. apply andb_prop in A. destruct A as [A B]. apply negb_true_iff in A. unfold expected. rewrite A. cbn [andb]. split; [ reflexivity | ].
    unfold plain_b in B. cbn [fst snd] in B. destruct (submodule m n code); [ discriminate | reflexivity ]. }
  destruct Hp as [Hok Hp]. destruct (names_after h fuel l m Hs Hf Hl Hm Hok) as [_ B]. rewrite (B n Hp). exact (F m n b Hi).
Qed.
Lemma export_names : forall h fuel l m x n b, supported (h_platform h) = true -> enough fuel -> forallb (ours code) l = true -> In m l -> In (m, x, b) (exports h) -> In n x ->
  has n (names_of m (fst (import_all h code fuel l []))) = b.
Proof.
  intros h fuel l m x n b Hs Hf Hl Hm Hi Hn. destruct (facts_parts h Hs) as [_ [_ [_ [F _]]]].
  assert (Hp : expected h m = IOk tt /\ submodule m n code = None).
  { assert (G : forallb (fun y => let '(m, l, _) := y in negb (Pos.eqb m "ptrace.pydistorm"%name) && forallb (fun n => plain_b (m, n)) l) (exports h) = true) by (vm_compute; reflexivity).
    pose proof (proj1 (forallb_forall _ _) G _ Hi) as A. cbv beta iota in A. apply andb_prop in A. destruct A as [A B]. apply negb_true_iff in A. unfold expected. rewrite A. cbn [andb]. split; [ reflexivity | ].
    pose proof (proj1 (forallb_forall _ _) B n Hn) as C. unfold plain_b in C. cbn [fst snd] in C. destruct (submodule m n code); [ discriminate | reflexivity ]. }
  destruct Hp as [Hok Hp]. destruct (names_after h fuel l m Hs Hf Hl Hm Hok) as [_ B]. unfold has. rewrite (B n Hp). exact (F m x n b Hi Hn).
Qed.
Lemma disassembler_flag : forall h fuel l, supported (h_platform h) = true -> enough fuel -> forallb (ours code) l = true -> In "ptrace.disasm"%name l ->
  look "HAS_DISASSEMBLER"%name (names_of "ptrace.disasm"%name (fst (import_all h code fuel l []))) = Some (VBool (with_disassembler h)).
Proof.
  intros h fuel l Hs Hf Hl Hm. destruct (facts_parts h Hs) as [_ [_ [_ [_ [F _]]]]].
  destruct (names_after h fuel l _ Hs Hf Hl Hm) as [_ B]; [ reflexivity | ]. rewrite B; [ exact F | ]. vm_compute. reflexivity.
Qed.
(** ** setup.py *)
Definition in_setup (f : file) : bool :=
  match f_package f with Some p => mem p setup_modules | None => mem (f_name f) (setup_modules ++ setup_scripts ++ setup_examples) end.
Lemma all_in_setup : forallb in_setup code && forallb (ours code) (setup_modules ++ setup_scripts ++ setup_examples) = true.
Proof. vm_compute. reflexivity. Qed.
Lemma installed :
  (forall f, In f code -> match f_package f with Some p => In p setup_modules | None => In (f_name f) (setup_modules ++ setup_scripts ++ setup_examples) end)
  /\ (forall m, In m (setup_modules ++ setup_scripts ++ setup_examples) -> ours code m = true).
Proof.
  pose proof all_in_setup as H. apply andb_prop in H. destruct H as [H1 H2]. split; [ | exact (proj1 (forallb_forall _ _) H2) ].
  intros f Hf. pose proof (proj1 (forallb_forall _ _) H1 f Hf) as A. unfold in_setup in A. destruct (f_package f); apply mem_In; exact A.
Qed.
(** ** Linux on ARM *)
Definition arm_host : host := Host linux_arm32 false false false.
Lemma arm : snd (import_module arm_host code 300 "ptrace.binding.cpu"%name []) = IOk tt
  /\ (forall m, In m ["ptrace.syscall"; "ptrace.debugger"; "strace"; "gdb"]%name -> snd (import_module arm_host code 300 m []) = IErr NotImplementedError_).
Proof.
  split; [ vm_compute; reflexivity | ]. intros m Hm. destruct Hm as [E | [E | [E | [E | []]]]]; subst m; vm_compute; reflexivity.
Qed.
