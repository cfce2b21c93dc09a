(** * AttrProofs2: the classes of AttrCode.v pass the check. *)
From Coq Require Import List Bool PArith.
From Verif Require Import AttrNames AttrModel AttrCode AttrSpec AttrCheck AttrProofs AttrContracts.
Import ListNotations.
Open Scope attr_scope.

Definition full (contracts : list contract) (c : attr) : env := match contract_of contracts c "__init__" with Some (_, post) => post | None => [] end.
(** Every method has a contract that asks for no more than what the constructor assigns *)
Definition check_method (contracts : list contract) (c : attr) (x : member) : bool :=
  match x with
  | MAttr _ => true
  | MMethod m _ =>
      match contract_of contracts c m with
      | Some (pre, _) => subset pre (if Pos.eqb m "__init__" then [] else full contracts c)
      | None => false
      end
  end.
Definition check_object (k : known) (table : list class) (contracts : list contract) (c : attr) : bool :=
  check_class k table contracts c && forallb (check_method contracts c) (members (to_flags k) table c).
Definition check_program (k : known) (table : list class) (contracts : list contract) (c : attr) : bool :=
  check_class k table contracts c
  && match contract_of contracts c "__init__" with Some ([], _) => true | _ => false end
  && match contract_of contracts c "main" with Some (pre, _) => subset pre (full contracts c) | None => false end.

Section Objects.
  Context (k : known) (flags : attr -> bool) (table : list class) (contracts : list contract) (c : attr) (A : agrees k flags).

  Lemma contract_sound : check_class k table contracts c = true -> forall m body pre post e o,
    contract_of contracts c m = Some (pre, post) -> method flags table c m = Some body -> incl pre e -> run flags table c body e o ->
    (forall a, o <> Missing a) /\ (forall e', leave o = Done e' -> incl post e').
  Proof.
    intros C m body pre post e o K M I R.
    assert (D := decided_c _ _ _ _ C).
    assert (Q : check k table contracts c [] (ACall m) pre = Some (Some (post ++ pre))).
    { cbn [check]. unfold check_call. rewrite D, <- (method_same k flags _ _ _ A D), M, K.
      rewrite (proj2 (subset_spec pre pre) (incl_refl _)). reflexivity. }
    assert (S := check_sound k flags table contracts c A C _ _ _ (run_call flags table c m body e o M R) [] pre _ I Q).
    split.
    - intros a ->. exact S.
    - intros e' E. rewrite E in S. destruct S as (x & X & Ix). injection X as <-. intros y Y. apply Ix. apply in_or_app. left. exact Y.
  Qed.
  Lemma find_member : forall m body, method flags table c m = Some body -> exists m', In (MMethod m' body) (members flags table c) /\ m' = m.
  Proof.
    intros m body. unfold method. destruct (find (has_name m) (members flags table c)) as [ [ a | m' b ] | ] eqn:F; try discriminate.
    intros H. injection H as ->. apply find_some in F as [I E]. cbn in E. apply Pos.eqb_eq in E. subst m'. exists m. auto.
  Qed.
  Context (O : check_object k table contracts c = true).
  Lemma object_class : check_class k table contracts c = true.
  Proof. unfold check_object in O. apply andb_true_iff in O. tauto. Qed.
  Lemma object_contract : forall m body, method flags table c m = Some body ->
    exists pre post, contract_of contracts c m = Some (pre, post) /\ incl pre (if Pos.eqb m "__init__" then [] else full contracts c).
  Proof.
    intros m body M. apply find_member in M as (m' & I & ->). assert (D := decided_c _ _ _ _ object_class).
    rewrite (members_same k flags _ _ A D) in I. unfold check_object in O. apply andb_true_iff in O as [_ F]. rewrite forallb_forall in F.
    specialize (F _ I). cbn [check_method] in F. destruct (contract_of contracts c m) as [ [pre post] | ]; [ | discriminate ].
    exists pre, post. split; [ reflexivity | apply subset_spec; exact F ].
  Qed.
  Lemma init_full : forall body o e, method flags table c "__init__" = Some body -> run flags table c body [] o -> leave o = Done e -> incl (full contracts c) e.
  Proof.
    intros body o e M R L. destruct (object_contract _ _ M) as (pre & post & K & I). rewrite Pos.eqb_refl in I.
    unfold full. rewrite K. exact (proj2 (contract_sound object_class _ _ _ _ _ _ K M I R) e L).
  Qed.
  (** Without a constructor nothing is asked for *)
  Context (N : match method (to_flags k) table c "__init__" with None => full contracts c = [] | Some _ => True end).
  Lemma created_incl : forall e, created flags table c e -> incl (full contracts c) e.
  Proof.
    intros e H. assert (D := decided_c _ _ _ _ object_class). rewrite <- (method_same k flags _ _ _ A D) in N.
    destruct H as [ body o e' M R L | M ]; [ exact (init_full _ _ _ M R L) | ]. rewrite M in N. rewrite N. apply incl_refl.
  Qed.
  Lemma alive_incl : forall e, alive flags table c e -> incl (full contracts c) e.
  Proof.
    intros e H. induction H as [ e H | m body e o e' H IH M R X ]; [ exact (created_incl e H) | ]. exact (incl_tran IH (run_grows _ _ _ _ _ _ R _ X)).
  Qed.
  Lemma object_init : init_finds flags table c.
  Proof.
    intros body a M R. destruct (object_contract _ _ M) as (pre & post & K & I). rewrite Pos.eqb_refl in I.
    exact (proj1 (contract_sound object_class _ _ _ _ _ _ K M I R) a eq_refl).
  Qed.
  Lemma object_finds : forall e m, alive flags table c e -> finds flags table c e m.
  Proof.
    intros e m H body a M R. destruct (object_contract _ _ M) as (pre & post & K & I).
    refine (proj1 (contract_sound object_class _ _ _ _ _ _ K M _ R) a eq_refl).
    eapply incl_tran; [ exact I | ]. destruct (Pos.eqb m "__init__"); [ apply incl_nil_l | exact (alive_incl e H) ].
  Qed.
End Objects.

Lemma program_finds : forall k flags table contracts c, agrees k flags -> check_program k table contracts c = true ->
  init_finds flags table c /\ forall body o e, method flags table c "__init__" = Some body -> run flags table c body [] o -> leave o = Done e -> finds flags table c e "main".
Proof.
  intros k flags table contracts c A H. unfold check_program in H. apply andb_true_iff in H as [H Hm]. apply andb_true_iff in H as [C Hi].
  destruct (contract_of contracts c "__init__") as [ [ [ | ] post ] | ] eqn:Ki; try discriminate.
  destruct (contract_of contracts c "main") as [ [pre pm] | ] eqn:Km; [ | discriminate ]. apply subset_spec in Hm. unfold full in Hm. rewrite Ki in Hm.
  split.
  - intros body a M R. exact (proj1 (contract_sound k flags table contracts c A C _ _ _ _ _ _ Ki M (incl_refl _) R) a eq_refl).
  - intros body o e M R L b a Mb Rb.
    assert (I := proj2 (contract_sound k flags table contracts c A C _ _ _ _ _ _ Ki M (incl_refl _) R) e L).
    exact (proj1 (contract_sound k flags table contracts c A C _ _ _ _ _ _ Km Mb (incl_tran Hm I) Rb) a eq_refl).
Qed.

(** The two flags on which members depend *)
Definition flags_known (flags : attr -> bool) : known := [("HAS_PROC", flags "HAS_PROC"); ("HAS_PTRACE_IO", flags "HAS_PTRACE_IO")].
Lemma flags_agree : forall flags, agrees (flags_known flags) flags.
Proof. intros flags n b [ H | [ H | [] ] ]; injection H as <- <-; reflexivity. Qed.
Definition contracts_of (a b : bool) (c : attr) : list contract :=
  match find (fun x => Pos.eqb (fst x) c) (all_contracts a b) with Some x => snd x | None => [] end.
Definition init_or_nothing (k : known) (contracts : list contract) (c : attr) : bool :=
  match method (to_flags k) classes c "__init__" with None => match full contracts c with [] => true | _ => false end | Some _ => true end.
Definition objects_ok (a b : bool) : bool :=
  let k := [("HAS_PROC", a); ("HAS_PTRACE_IO", b)] in
  forallb (fun c => check_object k classes (contracts_of a b c) c && init_or_nothing k (contracts_of a b c) c) objects
  && forallb (fun c => check_program k classes (contracts_of a b c) c) programs
  && forallb (fun x => forallb (fun a' => there (to_flags k) classes (fst x) a' (full (contracts_of a b (fst x)) (fst x))) (snd x) && mem (fst x) objects) documented.
Lemma objects_checked : forall a b, objects_ok a b = true.
Proof. intros [] []; vm_compute; reflexivity. Qed.
Lemma object_checked : forall flags c, In c objects ->
  let k := flags_known flags in let l := contracts_of (flags "HAS_PROC") (flags "HAS_PTRACE_IO") c in
  check_object k classes l c = true /\ match method (to_flags k) classes c "__init__" with None => full l c = [] | Some _ => True end.
Proof.
  intros flags c H k l. assert (Q := objects_checked (flags "HAS_PROC") (flags "HAS_PTRACE_IO")). unfold objects_ok in Q.
  apply andb_true_iff in Q as [Q _]. apply andb_true_iff in Q as [Q _]. rewrite forallb_forall in Q. specialize (Q c H). apply andb_true_iff in Q as [Q1 Q2].
  split; [ exact Q1 | ]. unfold init_or_nothing in Q2. fold l in Q2. change [("HAS_PROC", flags "HAS_PROC"); ("HAS_PTRACE_IO", flags "HAS_PTRACE_IO")] with k in Q2.
  destruct (method (to_flags k) classes c "__init__"); [ exact Logic.I | ]. destruct (full l c); [ reflexivity | discriminate ].
Qed.
Lemma all_objects : forall flags c, In c objects ->
  init_finds flags classes c /\ forall e m, alive flags classes c e -> finds flags classes c e m.
Proof.
  intros flags c H. destruct (object_checked flags c H) as [O N]. split.
  - exact (object_init _ _ _ _ _ (flags_agree flags) O).
  - exact (object_finds _ _ _ _ _ (flags_agree flags) O N).
Qed.
Lemma all_programs : forall flags c, In c programs ->
  init_finds flags classes c /\ forall e, created flags classes c e -> finds flags classes c e "main".
Proof.
  intros flags c H. assert (Q := objects_checked (flags "HAS_PROC") (flags "HAS_PTRACE_IO")). unfold objects_ok in Q.
  apply andb_true_iff in Q as [Q _]. apply andb_true_iff in Q as [_ Q]. rewrite forallb_forall in Q. specialize (Q c H).
  destruct (program_finds _ flags _ _ _ (flags_agree flags) Q) as [Q1 Q2]. split; [ exact Q1 | ].
  intros e [ body o e' M R L | M ]; [ exact (Q2 _ _ _ M R L) | ].
  exfalso. assert (D : decided (flags_known flags) classes c = true).
  { unfold check_program in Q. apply andb_true_iff in Q as [Q _]. apply andb_true_iff in Q as [Q _]. exact (decided_c _ _ _ _ Q). }
  rewrite (method_same (flags_known flags) flags _ _ _ (flags_agree flags) D) in M.
  assert (X : forallb (fun c => match method (to_flags (flags_known flags)) classes c "__init__" with Some _ => true | None => false end) programs = true).
  { unfold flags_known. generalize (flags "HAS_PROC") (flags "HAS_PTRACE_IO"). intros [] []; vm_compute; reflexivity. }
  rewrite forallb_forall in X. specialize (X c H). cbv beta in X. rewrite M in X. discriminate.
Qed.
Lemma documented_there : forall flags c l a e, In (c, l) documented -> In a l -> alive flags classes c e -> there flags classes c a e = true.
Proof.
  intros flags c l a e H Ha He. assert (Q := objects_checked (flags "HAS_PROC") (flags "HAS_PTRACE_IO")). unfold objects_ok in Q.
  apply andb_true_iff in Q as [_ Q]. rewrite forallb_forall in Q. specialize (Q _ H). cbn [fst snd] in Q. apply andb_true_iff in Q as [Q I].
  apply mem_In in I. rewrite forallb_forall in Q. specialize (Q a Ha). destruct (object_checked flags c I) as [O N].
  rewrite (there_same (flags_known flags) flags _ _ _ _ (flags_agree flags) (decided_c _ _ _ _ (object_class _ _ _ _ O))).
  eapply there_incl; [ | exact Q ]. exact (alive_incl _ _ _ _ _ (flags_agree flags) O N e He).
Qed.
