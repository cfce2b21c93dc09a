From Coq Require Import ZArith List Ascii String Bool Lia.
From Verif Require Import PyBase PyFacts Platform TabModel TabSpec.
Import ListNotations.
Open Scope Z_scope.

Fixpoint nodupb {A} (eqb : A -> A -> bool) (l : list A) : bool :=
  match l with [] => true | x :: l => negb (existsb (eqb x) l) && nodupb eqb l end.
Lemma nodupb_spec {A} (eqb : A -> A -> bool) (Heq : forall a b, eqb a b = true <-> a = b) l : nodupb eqb l = true -> NoDup l.
Proof.
  induction l as [|x l IH]; cbn; intros H; [constructor|]. apply andb_prop in H as [H1 H2]. constructor; [|auto].
  intros Hin. apply negb_true_iff in H1. apply not_true_iff_false in H1. apply H1. apply existsb_exists. exists x. split; [exact Hin|]. now apply Heq.
Qed.
Definition is_some {A} (o : option A) : bool := match o with Some _ => true | None => false end.
Lemma text_eqb_iff a b : text_eqb a b = true <-> a = b. Proof. apply text_eqb_eq. Qed.
Definition formats_dec (a b : list (text * text)) : {a = b} + {a <> b}.
Proof. repeat decide equality. Defined.

(** Checkers, for any tables *)
Section Generic.
  Variable P : list (text * (text * list (text * text))).
  Definition protos_check : bool := forallb (fun e => match snd e with (c :: r, formats) => (List.length formats <=? 6)%nat && text_eqb (c :: r) (T "long")
   && nodupb text_eqb (map snd formats) && forallb (fun f => is_some (hd_error (fst f))) formats | _ => false end) P.
  Lemma protos_check_spec name restype formats : protos_check = true -> In (name, (restype, formats)) P ->
    restype = T "long" /\ (List.length formats <= 6)%nat /\ NoDup (map snd formats) /\ (forall ty nm, In (ty, nm) formats -> ty <> []).
  Proof.
    unfold protos_check. rewrite forallb_forall. intros Hf H. specialize (Hf _ H). cbn [snd] in Hf.
    destruct restype as [|c r]; [discriminate|]. rewrite !andb_true_iff in Hf. destruct Hf as [[[H1 H2] H3] H4].
    split; [apply text_eqb_eq; exact H2|]. split; [apply Nat.leb_le; exact H1|]. split; [apply (nodupb_spec text_eqb text_eqb_iff); exact H3|].
    intros ty nm Hin. rewrite forallb_forall in H4. specialize (H4 _ Hin). cbn in H4. destruct ty; [discriminate|congruence].
  Qed.
  Lemma unique_spec name r1 (f1 : list (text * text)) r2 f2 : nodupb text_eqb (map fst P) = true ->
    In (name, (r1, f1)) P -> In (name, (r2, f2)) P -> r1 = r2 /\ f1 = f2.
  Proof.
    intros Hn H1 H2. pose proof (nodupb_spec text_eqb text_eqb_iff _ Hn) as Hnd.
    apply (dget_NoDup_In text_eqb text_eqb_iff) in H1; [|exact Hnd]. apply (dget_NoDup_In text_eqb text_eqb_iff) in H2; [|exact Hnd].
    rewrite H1 in H2. injection H2. auto.
  Qed.
  Definition sock_check (names : list (Z * text)) (socks : list text) : bool :=
    forallb (fun s => existsb (fun e => text_eqb (snd e) s) names && is_some (dget text_eqb s P)) socks.
  Lemma sock_check_spec names socks s : sock_check names socks = true -> In s socks ->
    (exists n, In (n, s) names) /\ exists r f, In (s, (r, f)) P.
  Proof.
    unfold sock_check. rewrite forallb_forall. intros H Hin. specialize (H _ Hin). apply andb_prop in H as [H1 H2]. split.
    - apply existsb_exists in H1 as ([n x] & H1 & E). cbn in E. apply text_eqb_eq in E. subst. eauto.
    - destruct (dget text_eqb s P) as [[r f]|] eqn:E; [|discriminate]. exists r, f.
      apply (dget_In text_eqb text_eqb_iff) in E. exact E.
  Qed.
  Definition index_check (I : list (text * list nat)) : bool := forallb (fun e => match dget text_eqb (fst e) P with
     | Some (_, f) => forallb (fun i => (i <? List.length f)%nat) (snd e) | None => false end) I.
  Lemma index_check_spec I name indices i : index_check I = true -> In (name, indices) I -> In i indices ->
    exists r f, In (name, (r, f)) P /\ (i < List.length f)%nat.
  Proof.
    unfold index_check. rewrite forallb_forall. intros H Hn Hi. specialize (H _ Hn). cbn [fst snd] in H.
    destruct (dget text_eqb name P) as [[r f]|] eqn:E; [|discriminate]. exists r, f. split; [apply (dget_In text_eqb text_eqb_iff) in E; exact E|].
    rewrite forallb_forall in H. apply Nat.ltb_lt, H. exact Hi.
  Qed.
  Definition call_check (C : list (Z * text)) : bool := forallb (fun e => is_some (dget text_eqb (snd e) P)) C.
  Lemma call_check_spec C n name : call_check C = true -> In (n, name) C -> exists r f, In (name, (r, f)) P.
  Proof.
    unfold call_check. rewrite forallb_forall. intros H Hn. specialize (H _ Hn). cbn [snd] in H.
    destruct (dget text_eqb name P) as [[r f]|] eqn:E; [|discriminate]. exists r, f. apply (dget_In text_eqb text_eqb_iff) in E. exact E.
  Qed.
  Definition fd_set_check : bool := forallb (fun e => negb (existsb (fun a => text_eqb (fst a) (T "fd_set *")) (snd (snd e))) ||
     (match snd (snd e) with (_,n)::_ => text_eqb n (T "nfds") | [] => false end)) P.
  Lemma fd_set_check_spec name r f ty nm : fd_set_check = true -> In (name, (r, f)) P -> In (ty, nm) f -> ty = T "fd_set *" -> exists ty0 rest, f = (ty0, T "nfds") :: rest.
  Proof.
    unfold fd_set_check. rewrite forallb_forall. intros H Hp Hin ->. specialize (H _ Hp). cbn [snd] in H. apply orb_prop in H as [H|H].
    - apply negb_true_iff, not_true_iff_false in H. destruct H. apply existsb_exists. exists (T "fd_set *", nm). split; [exact Hin|reflexivity].
    - destruct f as [|[t0 n0] f]; [discriminate|]. apply text_eqb_eq in H. subst. eauto.
  Qed.
  Definition alias_check (A : list (text * list text)) : bool := forallb (fun e => match dget text_eqb (fst e) P with
     | Some (r, f) => forallb (fun c => match dget text_eqb c P with
            | Some (r', f') => text_eqb r r' && (if formats_dec f f' then true else false) | None => false end) (snd e)
     | None => false end) A.
  Lemma alias_check_spec A orig copies copy r f : alias_check A = true -> nodupb text_eqb (map fst P) = true ->
    In (orig, copies) A -> In copy copies -> In (orig, (r, f)) P -> In (copy, (r, f)) P.
  Proof.
    unfold alias_check. rewrite forallb_forall. intros H Hn Ho Hc Hp. specialize (H _ Ho). cbn [fst snd] in H.
    apply (dget_NoDup_In text_eqb text_eqb_iff) in Hp; [|exact (nodupb_spec text_eqb text_eqb_iff _ Hn)]. rewrite Hp in H.
    rewrite forallb_forall in H. specialize (H _ Hc). destruct (dget text_eqb copy P) as [[r' f']|] eqn:E; [|discriminate].
    apply andb_prop in H as [H1 H2]. apply text_eqb_eq in H1. destruct (formats_dec f f'); [|discriminate]. subst. apply (dget_In text_eqb text_eqb_iff) in E. exact E.
  Qed.
  Definition has_prefix_check (A B : list (text * (text * list (text * text)))) : bool :=
    forallb (fun e => match dget text_eqb (fst e) B with Some (r, f) => text_eqb r (fst (snd e)) && (if formats_dec f (snd (snd e)) then true else false) | None => false end) A.
  Lemma has_prefix_spec A B e : has_prefix_check A B = true -> In e A -> In e B.
  Proof.
    unfold has_prefix_check. rewrite forallb_forall. intros H He. specialize (H _ He). destruct e as [n [r f]]. cbn [fst snd] in H.
    destruct (dget text_eqb n B) as [[r' f']|] eqn:E; [|discriminate]. apply andb_prop in H as [H1 H2]. apply text_eqb_eq in H1.
    destruct (formats_dec f' f); [|discriminate]. subst. apply (dget_In text_eqb text_eqb_iff) in E. exact E.
  Qed.
End Generic.

Lemma c_protos : protos_check SYSCALL_PROTOTYPES = true. Proof. vm_compute. reflexivity. Qed.
Lemma c_nodup : nodupb text_eqb (map fst SYSCALL_PROTOTYPES) = true. Proof. vm_compute. reflexivity. Qed.
Lemma c_index : index_check SYSCALL_PROTOTYPES PREFORMAT_ARGUMENTS = true. Proof. vm_compute. reflexivity. Qed.
Lemma c_calls : call_check SYSCALL_PROTOTYPES SOCKETCALL = true. Proof. vm_compute. reflexivity. Qed.
Lemma c_fd_set : fd_set_check SYSCALL_PROTOTYPES = true. Proof. vm_compute. reflexivity. Qed.
Lemma c_alias : alias_check SYSCALL_PROTOTYPES ALIASES = true. Proof. vm_compute. reflexivity. Qed.
Lemma c_base : has_prefix_check BASE_PROTOTYPES SYSCALL_PROTOTYPES = true. Proof. vm_compute. reflexivity. Qed.
Definition platform_check (o : os) (c : cpu) : bool :=
  let p := Platform o c false false in
  match SYSCALL_NAMES p, SOCKET_SYSCALL_NAMES p with
  | Ok names, Ok socks => sock_check SYSCALL_PROTOTYPES names socks && nodupb Z.eqb (map fst names)
  | Err ENotImplementedError, Err _ => match o, c with Linux, ARM32 | Linux, OtherCPU => true | _, _ => false end
  | _, _ => false
  end.
Lemma c_platform : forall o c, platform_check o c = true.
Proof. intros [] []; vm_compute; reflexivity. Qed.
Lemma tables_of p : SYSCALL_NAMES p = SYSCALL_NAMES (Platform (p_os p) (p_cpu p) false false) /\
  SOCKET_SYSCALL_NAMES p = SOCKET_SYSCALL_NAMES (Platform (p_os p) (p_cpu p) false false).
Proof. destruct p as [o c b w]. split; reflexivity. Qed.

Lemma prototypes_fine name restype formats : has_prototype name restype formats ->
  restype = T "long" /\ (List.length formats <= 6)%nat /\ NoDup (map snd formats) /\ (forall ty nm, In (ty, nm) formats -> ty <> []).
Proof. exact (protos_check_spec SYSCALL_PROTOTYPES name restype formats c_protos). Qed.
Lemma prototypes_unique name r1 f1 r2 f2 : has_prototype name r1 f1 -> has_prototype name r2 f2 -> r1 = r2 /\ f1 = f2.
Proof. exact (unique_spec SYSCALL_PROTOTYPES name r1 f1 r2 f2 c_nodup). Qed.
Lemma sock_fine p table s : SOCKET_SYSCALL_NAMES p = Ok table -> In s table ->
  (exists n, has_number p n s) /\ exists r f, has_prototype s r f.
Proof.
  destruct (tables_of p) as [E1 E2]. rewrite E2. unfold has_number. rewrite E1. pose proof (c_platform (p_os p) (p_cpu p)) as Hc. unfold platform_check in Hc.
  destruct (SYSCALL_NAMES _) as [names|e]; [|destruct e; try discriminate; destruct (SOCKET_SYSCALL_NAMES _); discriminate].
  destruct (SOCKET_SYSCALL_NAMES _) as [socks|]; [|discriminate]. apply andb_prop in Hc as [Hc _]. intros [= <-] Hin.
  destruct (sock_check_spec _ _ _ _ Hc Hin) as [[n Hn] Hp]. split; [|exact Hp]. exists n, names. split; [reflexivity|exact Hn].
Qed.
Lemma names_unique p table : SYSCALL_NAMES p = Ok table -> NoDup (map fst table).
Proof.
  destruct (tables_of p) as [E1 E2]. rewrite E1. pose proof (c_platform (p_os p) (p_cpu p)) as Hc. unfold platform_check in Hc. intros Hs. rewrite Hs in Hc.
  destruct (SOCKET_SYSCALL_NAMES _) as [socks|]; [|discriminate]. apply andb_prop in Hc as [_ Hc]. apply (nodupb_spec Z.eqb Z.eqb_eq). exact Hc.
Qed.
Lemma names_missing p e : SYSCALL_NAMES p = Err e <-> e = ENotImplementedError /\ p_os p = Linux /\ (p_cpu p = ARM32 \/ p_cpu p = OtherCPU).
Proof.
  unfold SYSCALL_NAMES. destruct p as [o c b w]. cbn [p_os p_cpu].
  destruct o; [destruct c| | |]; split; try (intros [= <-]; auto; fail); try (intros (? & ? & [|]); congruence); discriminate.
Qed.
Lemma preformat_fine name indices i : In (name, indices) PREFORMAT_ARGUMENTS -> In i indices ->
  exists r f, has_prototype name r f /\ (i < List.length f)%nat.
Proof. exact (index_check_spec SYSCALL_PROTOTYPES PREFORMAT_ARGUMENTS name indices i c_index). Qed.
Lemma socketcall_fine n name : In (n, name) SOCKETCALL -> exists r f, has_prototype name r f.
Proof. exact (call_check_spec SYSCALL_PROTOTYPES SOCKETCALL n name c_calls). Qed.
Lemma fd_set_fine name r f ty nm : has_prototype name r f -> In (ty, nm) f -> ty = T "fd_set *" -> exists ty0 rest, f = (ty0, T "nfds") :: rest.
Proof. exact (fd_set_check_spec SYSCALL_PROTOTYPES name r f ty nm c_fd_set). Qed.
Lemma aliases_fine orig copies copy r f : In (orig, copies) ALIASES -> In copy copies -> has_prototype orig r f -> has_prototype copy r f.
Proof. exact (alias_check_spec SYSCALL_PROTOTYPES ALIASES orig copies copy r f c_alias c_nodup). Qed.
Lemma base_fine name r f : In (name, (r, f)) BASE_PROTOTYPES -> has_prototype name r f.
Proof. exact (has_prefix_spec BASE_PROTOTYPES SYSCALL_PROTOTYPES (name, (r, f)) c_base). Qed.
(** Reading an entry of the tables by evaluation *)
Lemma has_prototype_dget name r f : dget text_eqb name SYSCALL_PROTOTYPES = Some (r, f) -> has_prototype name r f.
Proof. exact (dget_In text_eqb text_eqb_iff name (r, f) SYSCALL_PROTOTYPES). Qed.
Lemma dget_has_prototype name r f : has_prototype name r f -> dget text_eqb name SYSCALL_PROTOTYPES = Some (r, f).
Proof. exact (dget_NoDup_In text_eqb text_eqb_iff name (r, f) SYSCALL_PROTOTYPES (nodupb_spec text_eqb text_eqb_iff _ c_nodup)). Qed.
Lemma has_number_dget p n name table : SYSCALL_NAMES p = Ok table -> (has_number p n name <-> dget Z.eqb n table = Some name).
Proof.
  intros E. unfold has_number. split.
  - intros (t & Et & Hin). rewrite E in Et. injection Et as <-. apply (dget_NoDup_In Z.eqb Z.eqb_eq); [apply (names_unique p); exact E|exact Hin].
  - intros H. exists table. split; [exact E|]. apply (dget_In Z.eqb Z.eqb_eq) in H. exact H.
Qed.
Definition number_of p n := match SYSCALL_NAMES p with Ok table => dget Z.eqb n table | Err _ => None end.
Lemma number_of_spec p n name : number_of p n = Some name -> has_number p n name.
Proof.
  unfold number_of. destruct (SYSCALL_NAMES p) as [table|] eqn:E; [|discriminate]. intros H. apply (has_number_dget p n name table E). exact H.
Qed.
Lemma ppc32_empty : exists p n, has_number p n [].
Proof. exists linux_ppc32, 178. apply number_of_spec. vm_compute. reflexivity. Qed.
Lemma x32_duplicates : exists p a b name, a <> b /\ has_number p a name /\ has_number p b name.
Proof.
  exists linux_x86_64, 59, 520, (T "execve"). split; [discriminate|]. split; apply number_of_spec; vm_compute; reflexivity.
Qed.
