(** * KernProofs: the tables of the library against the headers. *)
From Coq Require Import ZArith List Ascii String Bool Lia.
From Verif Require Import PyBase PyFacts Platform StructModel RegModel ToolsModel TabModel TabSpec TabProofs ArgModel CtModel KernSpec.
Import ListNotations.
Open Scope Z_scope.

(** ** Decisions *)
Definition place_eqb (a b : place) : bool :=
  text_eqb (fst a) (fst b) && (fst (snd a) =? fst (snd b)) && (snd (snd a) =? snd (snd b)).
Definition entry_eqb (a b : Z * text) : bool := (fst a =? fst b) && text_eqb (snd a) (snd b).
Definition mem {A} (eqb : A -> A -> bool) (x : A) (l : list A) : bool := existsb (eqb x) l.
Lemma place_eqb_eq a b : place_eqb a b = true -> a = b.
Proof.
  destruct a as [n [o s]], b as [n' [o' s']]. unfold place_eqb. cbn [fst snd]. rewrite !andb_true_iff, !Z.eqb_eq, text_eqb_eq.
  intros [[-> ->] ->]. reflexivity.
Qed.
Lemma entry_eqb_eq a b : entry_eqb a b = true -> a = b.
Proof. destruct a, b. unfold entry_eqb. cbn [fst snd]. rewrite andb_true_iff, Z.eqb_eq, text_eqb_eq. intros [-> ->]. reflexivity. Qed.
Lemma mem_In {A} (eqb : A -> A -> bool) (H : forall a b, eqb a b = true -> a = b) x l : mem eqb x l = true -> In x l.
Proof. unfold mem. rewrite existsb_exists. intros (y & Hy & E). apply H in E. congruence. Qed.
Lemma mem_text x l : mem text_eqb x l = true -> In x l.
Proof. apply mem_In. intros a b E. now apply text_eqb_eq. Qed.
Lemma In_mem_text x l : In x l -> mem text_eqb x l = true.
Proof. intros H. unfold mem. apply existsb_exists. exists x. split; [exact H|now apply text_eqb_eq]. Qed.

(** ** Registers *)
Definition regs_check (fs : fields) (spec : list place * Z) : bool :=
  (sizeof fs =? snd spec) &&
  forallb (fun r => match dget text_eqb (fst r) (layout 0 fs) with
                    | Some (o, s) => (o =? fst (snd r)) && (s =? snd (snd r))
                    | None => false
                    end) (fst spec) &&
  forallb (fun name => starts_with (T "__") name || mem text_eqb name (map fst (fst spec))) (map fst fs).
Definition regs_meet (fs : fields) (regs : list place) (size : Z) : Prop :=
  sizeof fs = size /\
  (forall name off sz, In (name, (off, sz)) regs -> dget text_eqb name (layout 0 fs) = Some (off, sz)) /\
  (forall name, In name (map fst fs) -> starts_with (T "__") name = true \/ In name (map fst regs)).
Lemma regs_check_spec fs regs size : regs_check fs (regs, size) = true -> regs_meet fs regs size.
Proof.
  unfold regs_check, regs_meet. cbn [fst snd]. rewrite !andb_true_iff, Z.eqb_eq, !forallb_forall. intros [[H1 H2] H3].
  split; [exact H1|]. split.
  - intros name off sz Hin. specialize (H2 _ Hin). cbn [fst snd] in H2. destruct (dget text_eqb name (layout 0 fs)) as [[o s]|]; [|discriminate].
    apply andb_true_iff in H2 as [H H']. apply Z.eqb_eq in H, H'. congruence.
  - intros name Hin. specialize (H3 _ Hin). apply orb_true_iff in H3 as [H|H]; [now left|right; now apply mem_text].
Qed.
Lemma registers p regs size : kernel_registers p = Some (regs, size) -> ~ (p_os p = OpenBSD /\ p_cpu p = X86_64) ->
  regs_meet (register_fields p) regs size.
Proof.
  destruct p as [os cpu big b64]. intros H Hn. apply regs_check_spec. cbn [p_os p_cpu p_64bits p_bigendian] in *.
  revert H. unfold kernel_registers, register_fields, word_size. cbn [p_os p_cpu p_64bits].
  destruct os, cpu, b64; intros H; try discriminate H; try (exfalso; apply Hn; split; reflexivity); injection H as <- <-;
    destruct big; vm_compute; reflexivity.
Qed.
Lemma openbsd_amd64 : exists p regs size, kernel_registers p = Some (regs, size) /\ sizeof (register_fields p) <> size /\
  In (T "rip", (128, 8)) regs /\ ~ In (T "rip") (REGISTER_NAMES p) /\ CPU_INSTR_POINTER p = Some (T "rip").
Proof.
  exists (Platform OpenBSD X86_64 false true). do 2 eexists. split; [reflexivity|]. split; [vm_compute; discriminate|].
  split; [apply (mem_In place_eqb place_eqb_eq); vm_compute; reflexivity|]. split; [|reflexivity].
  intros H. apply In_mem_text in H. vm_compute in H. discriminate H.
Qed.

(** ** Other structures of the debugging interface *)
Definition flat (l : list place) : list (list text * (Z * Z)) := map (fun r => ([fst r], snd r)) l.
Lemma fpregs p : p_os p = Linux -> p_cpu p = X86_64 \/ p_cpu p = I386 ->
  leaves [] 0 (user_fpregs_struct p) = flat (fst (kernel_fpregs (p_64bits p))) /\
  ct_sizeof (user_fpregs_struct p) = snd (kernel_fpregs (p_64bits p)).
Proof.
  intros _ _. unfold user_fpregs_struct, c_ulong, word_size. destruct (p_64bits p); split; vm_compute; reflexivity.
Qed.
Lemma fpxregs p : p_os p = Linux -> if p_64bits p then user_fpxregs_struct p = None else
  exists c, user_fpxregs_struct p = Some c /\ leaves [] 0 c = flat (fst kernel_fpxregs) /\ ct_sizeof c = snd kernel_fpxregs.
Proof.
  intros _. unfold user_fpxregs_struct, c_ulong, word_size. destruct (p_64bits p); [reflexivity|]. eexists. split; [reflexivity|]. split; vm_compute; reflexivity.
Qed.
Lemma iovec p : leaves [] 0 (iovec_struct p) = flat (fst (kernel_iovec (p_64bits p))) /\
  ct_sizeof (iovec_struct p) = snd (kernel_iovec (p_64bits p)).
Proof. unfold iovec_struct, c_void_p, c_size_t, word_size. destruct (p_64bits p); split; vm_compute; reflexivity. Qed.
Lemma io_desc p : leaves [] 0 (ptrace_io_desc p) = flat (fst (kernel_io_desc (p_64bits p))) /\
  ct_sizeof (ptrace_io_desc p) = snd (kernel_io_desc (p_64bits p)).
Proof. unfold ptrace_io_desc, c_void_p, c_size_t, word_size. destruct (p_64bits p); split; vm_compute; reflexivity. Qed.

(** the field [name] of siginfo, wherever it is in the structure *)
Definition si_field (p : platform) (name : text) : option (Z * Z) :=
  match find (fun l => match rev (fst l) with n :: _ => text_eqb n name | [] => false end) (leaves [] 0 (siginfo p)) with
  | Some l => Some (snd l)
  | None => None
  end.
Definition si_check p : bool :=
  forallb (fun r => mem text_eqb (fst r) (if p_64bits p then [T "uid"; T "utime"; T "stime"] else [T "uid"]) ||
                    match si_field p (fst r) with Some (o, s) => (o =? fst (snd r)) && (s =? snd (snd r)) | None => false end)
          (kernel_siginfo (p_64bits p)).
Lemma si_field_In p name o s : si_field p name = Some (o, s) -> exists path, In (path ++ [name], (o, s)) (leaves [] 0 (siginfo p)).
Proof.
  unfold si_field. destruct (find _ _) as [[path os]|] eqn:E; [|discriminate]. intros H. cbn [snd] in H. injection H as ->.
  apply find_some in E as [Hin E]. cbn [fst] in E. destruct (rev path) as [|n rest] eqn:Er; [discriminate|].
  apply text_eqb_eq in E. subst n. exists (rev rest). replace (rev rest ++ [name]) with path; [exact Hin|].
  rewrite <- (rev_involutive path), Er. reflexivity.
Qed.
Lemma siginfo_fields p name o s : In (name, (o, s)) (kernel_siginfo (p_64bits p)) ->
  name <> T "uid" -> (p_64bits p = true -> name <> T "utime" /\ name <> T "stime") ->
  exists path, In (path ++ [name], (o, s)) (leaves [] 0 (siginfo p)).
Proof.
  intros Hin Hu Ht. apply si_field_In.
  assert (si_check p = true) as Hc.
  { unfold si_check, si_field, siginfo, _sifields_t, _sifields_sigfault_t, c_void_p, word_size. destruct (p_64bits p); vm_compute; reflexivity. }
  unfold si_check in Hc. rewrite forallb_forall in Hc. specialize (Hc _ Hin). cbn [fst snd] in Hc. apply orb_true_iff in Hc as [Hc|Hc].
  - exfalso. apply mem_text in Hc. destruct (p_64bits p).
    + destruct (Ht eq_refl) as [H1 H2]. destruct Hc as [H|[H|[H|[]]]]; congruence.
    + destruct Hc as [H|[]]; congruence.
  - destruct (si_field p name) as [[o' s']|]; [|discriminate]. apply andb_true_iff in Hc as [H1 H2]. apply Z.eqb_eq in H1, H2. congruence.
Qed.
Lemma siginfo_wrong : exists p, p = linux_x86_64 /\
  In (T "uid", (20, 4)) (kernel_siginfo true) /\ si_field p (T "uid") = Some (20, 2) /\
  In (T "utime", (32, 8)) (kernel_siginfo true) /\ si_field p (T "utime") = Some (28, 4) /\
  ct_sizeof (siginfo p) = 136 /\ SI_MAX_SIZE = 128.
Proof.
  exists linux_x86_64. split; [reflexivity|].
  repeat split; try (apply (mem_In place_eqb place_eqb_eq); vm_compute; reflexivity); vm_compute; reflexivity.
Qed.
Lemma siginfo_size p : p_64bits p = false -> ct_sizeof (siginfo p) = SI_MAX_SIZE.
Proof. intros H. unfold siginfo, _sifields_t, _sifields_sigfault_t, c_void_p, word_size. rewrite H. vm_compute. reflexivity. Qed.

(** ** Structures of system call arguments *)
Definition struct_places (s : struct) : list place :=
  map (fun f => (fst f, (fst (snd f), ct_size (snd (snd f))))) (struct_layout 0 s).
Definition measured (s : struct) : list place * Z := (struct_places s, struct_size s).
Lemma structs_eq p : p_os p = Linux ->
  map (fun e => (fst e, measured (snd e))) (if p_64bits p then removelast (KNOWN_STRUCTS p) else KNOWN_STRUCTS p) =
  (if p_64bits p then removelast (kernel_structs true) else kernel_structs false).
Proof.
  intros H. unfold KNOWN_STRUCTS, running_linux. rewrite H. unfold linux_structs, word_size. destruct (p_64bits p); vm_compute; reflexivity.
Qed.
Lemma structs p name places size : p_os p = Linux -> In (name, (places, size)) (kernel_structs (p_64bits p)) ->
  name <> T "user_desc" \/ p_64bits p = false ->
  exists s, In (name, s) (KNOWN_STRUCTS p) /\ struct_places s = places /\ struct_size s = size.
Proof.
  intros Hl Hin Hn. pose proof (structs_eq p Hl) as E.
  assert (In (name, (places, size)) (if p_64bits p then removelast (kernel_structs true) else kernel_structs false)) as Hin'.
  { destruct (p_64bits p); [|exact Hin]. destruct Hn as [Hn|Hn]; [|discriminate Hn].
    rewrite (app_removelast_last (l := kernel_structs true) ([], ([], 0))) in Hin by (vm_compute; discriminate).
    apply in_app_iff in Hin as [Hin|[Hin|[]]]; [exact Hin|]. exfalso. apply Hn.
    assert (fst (last (kernel_structs true) ([], ([], 0))) = T "user_desc") as E' by reflexivity. rewrite Hin in E'. exact E'. }
  rewrite <- E in Hin'. apply in_map_iff in Hin' as ([n s] & Es & Hs). unfold measured in Es. cbn [fst snd] in Es. injection Es as -> <- <-.
  exists s. split; [|split; reflexivity]. destruct (p_64bits p); [|exact Hs].
  unfold KNOWN_STRUCTS, running_linux in Hs |- *. rewrite Hl in Hs |- *.
  rewrite (app_removelast_last (l := linux_structs p) ([], [])) by discriminate. apply in_app_iff. now left.
Qed.
Lemma user_desc_wrong : exists p s, p = linux_x86_64 /\ In (T "user_desc", s) (KNOWN_STRUCTS p) /\
  In (T "user_desc", (row 4 0 "entry_number base_addr limit" ++ row 1 12 "_bits_", 16)) (kernel_structs true) /\
  In (T "base_addr", (8, 8)) (struct_places s) /\ In (T "base_addr", (4, 4)) (row 4 0 "entry_number base_addr limit") /\
  struct_size s = 24.
Proof.
  exists linux_x86_64. eexists. split; [reflexivity|].
  split; [unfold KNOWN_STRUCTS, linux_structs; cbn [running_linux p_os linux_x86_64]; do 5 right; left; reflexivity|].
  split; [do 5 right; left; reflexivity|].
  split; [apply (mem_In place_eqb place_eqb_eq); vm_compute; reflexivity|].
  split; [apply (mem_In place_eqb place_eqb_eq); vm_compute; reflexivity|vm_compute; reflexivity].
Qed.
Definition sockaddr_of (p : platform) (name : text) : option struct :=
  if text_eqb name (T "sockaddr") then Some (sockaddr p)
  else if text_eqb name (T "sockaddr_in") then Some (sockaddr_in p)
  else if text_eqb name (T "sockaddr_in6") then Some (sockaddr_in6 p)
  else if text_eqb name (T "sockaddr_un") then Some (sockaddr_un p)
  else if text_eqb name (T "sockaddr_nl") then Some (sockaddr_nl p) else None.
Lemma sockaddrs_linux p name places : p_os p = Linux -> In (name, places) linux_sockaddrs ->
  exists s, sockaddr_of p name = Some s /\ struct_places s = places.
Proof.
  intros Hl Hin. destruct p as [os cpu big b64]. cbn in Hl. subst os.
  unfold linux_sockaddrs in Hin. repeat (destruct Hin as [[= <- <-]|Hin]; [eexists; split; [reflexivity|vm_compute; reflexivity]|]). destruct Hin.
Qed.
Lemma sockaddrs_bsd p name places : p_os p <> Linux -> In (name, places) bsd_sockaddrs -> name <> T "sockaddr_un" ->
  exists s, sockaddr_of p name = Some s /\ struct_places s = places.
Proof.
  intros Hl Hin Hn. destruct p as [os cpu big b64]. cbn in Hl.
  unfold bsd_sockaddrs in Hin.
  do 3 (destruct Hin as [[= <- <-]|Hin]; [destruct os; try congruence; (eexists; split; [reflexivity|vm_compute; reflexivity])|]).
  destruct Hin as [[= <- <-]|[]]. exfalso. now apply Hn.
Qed.
Lemma sockaddr_un_wrong : exists p, p = freebsd_x86_64 /\ struct_places (sockaddr_un p) = row 1 0 "sun_family" ++ row 108 1 "sun_path" /\
  In (T "sun_family", (1, 1)) (row 1 1 "sun_family" ++ row 104 2 "sun_path").
Proof. exists freebsd_x86_64. split; [reflexivity|]. split; [vm_compute; reflexivity|]. left. reflexivity. Qed.

(** ** Constants *)
Definition in_check (table header : list (Z * text)) (but : list text) : bool :=
  forallb (fun e => mem text_eqb (snd e) but || mem entry_eqb e header) table.
Lemma in_check_spec table header but : in_check table header but = true ->
  forall n name, In (n, name) table -> ~ In name but -> In (n, name) header.
Proof.
  unfold in_check. rewrite forallb_forall. intros H n name Hin Hb. specialize (H _ Hin). cbn [snd] in H.
  apply orb_true_iff in H as [H|H]; [exfalso; apply Hb; now apply mem_text|now apply (mem_In entry_eqb entry_eqb_eq)].
Qed.
Lemma in_check_all table header : in_check table header [] = true -> forall n name, In (n, name) table -> In (n, name) header.
Proof. intros H n name Hin. apply (in_check_spec _ _ _ H); [exact Hin|intros []]. Qed.
Lemma open_flags n name : name <> T "O_SYNC" -> name <> T "O_DSYNC" -> In (n, name) OPEN_FLAGS_BITMASK <-> In (n, name) linux_open_flags.
Proof.
  intros H1 H2. split; intros Hin.
  - eapply (in_check_spec _ _ [T "O_SYNC"]); [|exact Hin|]; [vm_compute; reflexivity|]. intros [H|[]]. congruence.
  - eapply (in_check_spec _ _ [T "O_SYNC"; T "O_DSYNC"]); [|exact Hin|]; [vm_compute; reflexivity|]. intros [H|[H|[]]]; congruence.
Qed.
Lemma open_sync : exists n, In (n, T "O_SYNC") OPEN_FLAGS_BITMASK /\ In (n, T "O_DSYNC") linux_open_flags /\
  ~ In (n, T "O_SYNC") linux_open_flags.
Proof.
  exists 0x1000. split; [apply (mem_In entry_eqb entry_eqb_eq); vm_compute; reflexivity|].
  split; [apply (mem_In entry_eqb entry_eqb_eq); vm_compute; reflexivity|].
  intros H. assert (existsb (fun e => (fst e =? 0x1000) && text_eqb (snd e) (T "O_SYNC")) linux_open_flags = true) as E.
  { apply existsb_exists. exists (0x1000, T "O_SYNC"). split; [exact H|]. vm_compute. reflexivity. }
  vm_compute in E. discriminate E.
Qed.
Lemma both_ways table header : in_check table header [] = true -> in_check header table [] = true ->
  forall n name, In (n, name) table <-> In (n, name) header.
Proof. intros H1 H2 n name. split; apply in_check_all; assumption. Qed.
Lemma open_modes n name : In (n, name) OPEN_MODE_BITMASK <-> In (n, name) linux_file_modes.
Proof. revert n name. apply both_ways; vm_compute; reflexivity. Qed.
Lemma access_modes n name : In (n, name) ACCESS_MODE_BITMASK <-> In (n, name) posix_access_modes.
Proof. revert n name. apply both_ways; vm_compute; reflexivity. Qed.
Lemma protections n name : In (n, name) MMAP_PROT_BITMASK <-> In (n, name) linux_protections /\ name <> T "PROT_SEM".
Proof.
  split.
  - intros H. split; [revert H; apply in_check_all; vm_compute; reflexivity|]. intros ->.
    assert (existsb (fun e => text_eqb (snd e) (T "PROT_SEM")) MMAP_PROT_BITMASK = true) as E.
    { apply existsb_exists. eexists. split; [exact H|]. now apply text_eqb_eq. }
    vm_compute in E. discriminate E.
  - intros [H Hn]. eapply (in_check_spec _ _ [T "PROT_SEM"]); [|exact H|]; [vm_compute; reflexivity|]. intros [E|[]]. congruence.
Qed.
Lemma clone_flags n name : name <> T "CLONE_STOPPED" -> In (n, name) CLONE_FLAGS_BITMASK -> In (n, name) linux_clone_flags.
Proof. intros Hn H. eapply (in_check_spec _ _ [T "CLONE_STOPPED"]); [|exact H|]; [vm_compute; reflexivity|]. intros [E|[]]. congruence. Qed.
Lemma clone_flags_all n name : In (n, name) linux_clone_flags -> n < 2 ^ 28 -> name <> T "CLONE_PIDFD" -> name <> T "CLONE_NEWCGROUP" ->
  In (n, name) CLONE_FLAGS_BITMASK.
Proof.
  intros H Hn H1 H2. assert (In (n, name) (filter (fun e => fst e <? 2 ^ 28) linux_clone_flags)) as H'.
  { apply filter_In. split; [exact H|]. apply Z.ltb_lt. exact Hn. }
  eapply (in_check_spec _ _ [T "CLONE_PIDFD"; T "CLONE_NEWCGROUP"]); [|exact H'|]; [vm_compute; reflexivity|]. intros [E|[E|[]]]; congruence.
Qed.
Lemma clone_stopped : exists n, In (n, T "CLONE_STOPPED") CLONE_FLAGS_BITMASK /\ In (n, T "CLONE_NEWCGROUP") linux_clone_flags.
Proof. exists 0x2000000. split; apply (mem_In entry_eqb entry_eqb_eq); vm_compute; reflexivity. Qed.
Lemma socketcalls n name : In (n, name) SOCKETCALL -> In (n, name) linux_socketcalls.
Proof. apply in_check_all. vm_compute. reflexivity. Qed.
Lemma socketcalls_all n name : In (n, name) linux_socketcalls -> n <= 17 -> In (n, name) SOCKETCALL.
Proof.
  intros H Hn. assert (In (n, name) (filter (fun e => fst e <=? 17) linux_socketcalls)) as H'.
  { apply filter_In. split; [exact H|]. apply Z.leb_le. exact Hn. }
  revert H'. apply in_check_all. vm_compute. reflexivity.
Qed.
Lemma families n name : In (n, name) SOCKET_FAMILY -> In (n, name) linux_families.
Proof. apply in_check_all. vm_compute. reflexivity. Qed.
Lemma socket_types n name : In (n, name) SOCKET_TYPE -> In (n, name) linux_socket_types.
Proof. apply in_check_all. vm_compute. reflexivity. Qed.

(** arguments of system calls *)
Definition arg_values (p : platform) (syscall argument : text) (l : list (Z * text)) : Prop :=
  exists args, In (syscall, args) (SYSCALL_ARG_DICT p) /\ In (argument, l) args.
Definition args_check (p : platform) (header : text -> text -> list (Z * text)) (but : text -> text -> list text) : bool :=
  forallb (fun e => forallb (fun a => in_check (snd a) (header (fst e) (fst a)) (but (fst e) (fst a))) (snd e)) (SYSCALL_ARG_DICT p).
Lemma args_check_spec p header but : args_check p header but = true ->
  forall syscall argument l n name, arg_values p syscall argument l -> In (n, name) l -> ~ In name (but syscall argument) ->
    In (n, name) (header syscall argument).
Proof.
  unfold args_check. rewrite forallb_forall. intros H syscall argument l n name (args & H1 & H2) Hin Hb.
  specialize (H _ H1). cbn [fst snd] in H. rewrite forallb_forall in H. specialize (H _ H2). cbn [fst snd] in H.
  exact (in_check_spec _ _ _ H _ _ Hin Hb).
Qed.
Definition locks : list text := [T "F_GETOWN"; T "F_SETOWN"; T "F_GETLK"; T "F_SETLK"; T "F_SETLKW"].
Lemma linux_args p syscall argument l n name : p_os p = Linux -> arg_values p syscall argument l -> In (n, name) l ->
  argument <> T "optname" -> ~ In name locks -> name <> T "RLIMIT_NLIMITS" -> In (n, name) (linux_argument syscall argument).
Proof.
  intros Hl Ha Hin Ho Hk Hr.
  assert (args_check p linux_argument
            (fun _ a => if text_eqb a (T "optname") then map snd SETSOCKOPT_OPTNAME else T "RLIMIT_NLIMITS" :: locks) = true) as Hc.
  { unfold args_check, SYSCALL_ARG_DICT. rewrite Hl. vm_compute. reflexivity. }
  apply (args_check_spec _ _ _ Hc _ _ _ _ _ Ha Hin). destruct (text_eqb argument (T "optname")) eqn:E; [apply text_eqb_eq in E; congruence|].
  intros [H|H]; [congruence|now apply Hk].
Qed.
Lemma options p syscall l n name : p_os p = Linux -> arg_values p syscall (T "optname") l -> In (n, name) l ->
  In (n, name) linux_ip_options \/ In (n, name) linux_socket_options.
Proof.
  intros Hl Ha Hin. apply in_app_iff.
  assert (args_check p (fun _ a => if text_eqb a (T "optname") then linux_ip_options ++ linux_socket_options else [])
            (fun s a => if text_eqb a (T "optname") then [] else
               match dget text_eqb s (SYSCALL_ARG_DICT p) with
               | Some args => match dget text_eqb a args with Some l => map snd l | None => [] end | None => [] end) = true) as Hc.
  { unfold args_check, SYSCALL_ARG_DICT. rewrite Hl. vm_compute. reflexivity. }
  pose proof (args_check_spec _ _ _ Hc _ _ _ _ _ Ha Hin) as H. change (text_eqb (T "optname") (T "optname")) with true in H. cbv iota in H.
  apply H. intros [].
Qed.
Definition values_of (p : platform) (syscall argument : text) : list (Z * text) :=
  match dget text_eqb syscall (SYSCALL_ARG_DICT p) with
  | Some args => match dget text_eqb argument args with Some l => l | None => [] end
  | None => []
  end.
Lemma values_of_spec p syscall argument n name : In (n, name) (values_of p syscall argument) ->
  exists l, arg_values p syscall argument l /\ In (n, name) l.
Proof.
  unfold values_of. destruct (dget text_eqb syscall _) as [args|] eqn:E; [|intros []].
  destruct (dget text_eqb argument args) as [l|] eqn:E'; [|intros []]. intros H. exists l. split; [|exact H].
  exists args. split; [apply (dget_In text_eqb text_eqb_iff) in E; exact E|apply (dget_In text_eqb text_eqb_iff) in E'; exact E'].
Qed.
Lemma fcntl_wrong : exists p l, p_os p = Linux /\ arg_values p (T "fcntl") (T "cmd") l /\
  In (5, T "F_GETOWN") l /\ In (6, T "F_SETOWN") l /\ In (7, T "F_GETLK") l /\ In (8, T "F_SETLK") l /\ In (9, T "F_SETLKW") l /\
  In (5, T "F_GETLK") (linux_argument (T "fcntl") (T "cmd")) /\ In (9, T "F_GETOWN") (linux_argument (T "fcntl") (T "cmd")).
Proof.
  exists linux_x86_64, (values_of linux_x86_64 (T "fcntl") (T "cmd")). split; [reflexivity|]. split.
  - exists (match dget text_eqb (T "fcntl") (SYSCALL_ARG_DICT linux_x86_64) with Some a => a | None => [] end).
    split; [apply (dget_In text_eqb text_eqb_iff); vm_compute; reflexivity|left; vm_compute; reflexivity].
  - repeat split; apply (mem_In entry_eqb entry_eqb_eq); vm_compute; reflexivity.
Qed.
Lemma rlimit_wrong : exists p l, p_os p = Linux /\ arg_values p (T "getrlimit") (T "resource") l /\
  In (15, T "RLIMIT_NLIMITS") l /\ In (15, T "RLIMIT_RTTIME") (linux_argument (T "getrlimit") (T "resource")).
Proof.
  exists linux_x86_64, (values_of linux_x86_64 (T "getrlimit") (T "resource")). split; [reflexivity|]. split.
  - exists (match dget text_eqb (T "getrlimit") (SYSCALL_ARG_DICT linux_x86_64) with Some a => a | None => [] end).
    split; [apply (dget_In text_eqb text_eqb_iff); vm_compute; reflexivity|left; vm_compute; reflexivity].
  - split; apply (mem_In entry_eqb entry_eqb_eq); vm_compute; reflexivity.
Qed.
(** "IP_TOS" (level SOL_IP) is shown for SO_DEBUG (level SOL_SOCKET) *)
Lemma option_level_wrong : exists p l, p_os p = Linux /\ arg_values p (T "setsockopt") (T "optname") l /\
  In (1, T "IP_TOS") l /\ In (1, T "SO_DEBUG") linux_socket_options.
Proof.
  exists linux_x86_64, (values_of linux_x86_64 (T "setsockopt") (T "optname")). split; [reflexivity|]. split.
  - exists (match dget text_eqb (T "setsockopt") (SYSCALL_ARG_DICT linux_x86_64) with Some a => a | None => [] end).
    split; [apply (dget_In text_eqb text_eqb_iff); vm_compute; reflexivity|right; left; vm_compute; reflexivity].
  - split; apply (mem_In entry_eqb entry_eqb_eq); vm_compute; reflexivity.
Qed.
Lemma freebsd_args p syscall l n name : p_os p = FreeBSD -> arg_values p syscall (T "resource") l -> In (n, name) l ->
  In (n, name) (freebsd_argument syscall (T "resource")).
Proof.
  intros Hl Ha Hin.
  assert (args_check p freebsd_argument (fun s a => if text_eqb a (T "resource") then [] else map snd (values_of p s a)) = true) as Hc.
  { unfold args_check, values_of, SYSCALL_ARG_DICT. rewrite Hl. vm_compute. reflexivity. }
  pose proof (args_check_spec _ _ _ Hc _ _ _ _ _ Ha Hin) as H. change (text_eqb (T "resource") (T "resource")) with true in H. cbv iota in H.
  apply H. intros [].
Qed.
Lemma freebsd_how_wrong : exists p l, p_os p = FreeBSD /\ arg_values p (T "sigprocmask") (T "how") l /\
  In (1, T " SIG_BLOCK") l /\ In (1, T "SIG_BLOCK") (freebsd_argument (T "sigprocmask") (T "how")).
Proof.
  exists freebsd_x86_64, (values_of freebsd_x86_64 (T "sigprocmask") (T "how")). split; [reflexivity|]. split.
  - exists (match dget text_eqb (T "sigprocmask") (SYSCALL_ARG_DICT freebsd_x86_64) with Some a => a | None => [] end).
    split; [apply (dget_In text_eqb text_eqb_iff); vm_compute; reflexivity|left; vm_compute; reflexivity].
  - split; apply (mem_In entry_eqb entry_eqb_eq); vm_compute; reflexivity.
Qed.
(** the families of the table are those of Linux *)
Lemma freebsd_family_wrong : exists p l, p_os p = FreeBSD /\ arg_values p (T "socket") (T "domain") l /\ In (10, T "AF_INET6") l /\ AF_INET6 p = 28.
Proof.
  exists freebsd_x86_64, (values_of freebsd_x86_64 (T "socket") (T "domain")). split; [reflexivity|]. split.
  - exists (match dget text_eqb (T "socket") (SYSCALL_ARG_DICT freebsd_x86_64) with Some a => a | None => [] end).
    split; [apply (dget_In text_eqb text_eqb_iff); vm_compute; reflexivity|left; vm_compute; reflexivity].
  - split; [apply (mem_In entry_eqb entry_eqb_eq); vm_compute; reflexivity|reflexivity].
Qed.

(** ** System call numbers *)
Definition numbers_check (p : platform) : bool :=
  match SYSCALL_NAMES p, kernel_names p with
  | Ok table, Some header => in_check table header [T "timerfd"; []] &&
      forallb (fun e => (table_covers p <? fst e) || match dget Z.eqb (fst e) table with Some _ => true | None => false end) header
  | _, None => true
  | Err _, Some _ => false
  end.
Lemma numbers_checked p : numbers_check p = true.
Proof.
  destruct p as [os cpu big b64]. unfold numbers_check, SYSCALL_NAMES, kernel_names, table_covers. cbn [p_os p_cpu].
  destruct os, cpu; cbv iota; try reflexivity; vm_compute; reflexivity.
Qed.
Lemma numbers p n name header : kernel_names p = Some header -> has_number p n name -> name <> T "timerfd" -> name <> [] -> In (n, name) header.
Proof.
  intros Hk (table & Ht & Hin) Hn Hne. pose proof (numbers_checked p) as H. unfold numbers_check in H. rewrite Ht, Hk in H.
  apply andb_true_iff in H as [H _]. apply (in_check_spec _ _ _ H _ _ Hin). intros [E|[E|[]]]; congruence.
Qed.
Lemma numbers_all p n name header : kernel_names p = Some header -> In (n, name) header -> n <= table_covers p -> exists name', has_number p n name'.
Proof.
  intros Hk Hin Hn. pose proof (numbers_checked p) as H. unfold numbers_check in H. rewrite Hk in H.
  destruct (SYSCALL_NAMES p) as [table|e] eqn:Et; [|discriminate]. apply andb_true_iff in H as [_ H].
  rewrite forallb_forall in H. specialize (H _ Hin). cbn [fst] in H. apply orb_true_iff in H as [H|H]; [apply Z.ltb_lt in H; lia|].
  destruct (dget Z.eqb n table) as [name'|] eqn:E; [|discriminate]. exists name', table. split; [exact Et|].
  apply (dget_In Z.eqb Z.eqb_eq) in E. exact E.
Qed.
Lemma nameless p n name : has_number p n name -> name = [] -> p_os p = Linux /\ p_cpu p = PPC32 /\ In n [177; 178; 188; 198; 199; 200; 201].
Proof.
  intros (table & Ht & Hin) ->. destruct p as [os cpu big b64]. unfold SYSCALL_NAMES in Ht. cbn [p_os p_cpu] in *.
  assert (forall t, forallb (fun e : Z * text => negb (text_eqb (snd e) [])) t = true -> ~ In (n, []) t) as F.
  { intros t H Hi. rewrite forallb_forall in H. specialize (H _ Hi). discriminate H. }
  destruct os; [destruct cpu|..]; try discriminate Ht; injection Ht as <-; try (exfalso; revert Hin; apply F; vm_compute; reflexivity).
  split; [reflexivity|]. split; [reflexivity|].
  assert (forallb (fun e : Z * text => negb (text_eqb (snd e) []) || existsb (Z.eqb (fst e)) [177; 178; 188; 198; 199; 200; 201]) powerpc32_names = true) as H by (vm_compute; reflexivity).
  rewrite forallb_forall in H. specialize (H _ Hin). cbn [fst snd] in H. change (text_eqb [] []) with true in H. cbn [negb orb] in H.
  apply existsb_exists in H as (x & Hx & E). apply Z.eqb_eq in E. now subst.
Qed.
Lemma powerpc32_wrong : exists p header, p_os p = Linux /\ p_cpu p = PPC32 /\ kernel_names p = Some header /\
  (forall n, In n [177; 178; 188; 198; 199; 200; 201] -> has_number p n []) /\ In (177, T "rt_sigqueueinfo") header /\ In (178, T "rt_sigsuspend") header /\
  exists r f, has_prototype (T "rt_sigsuspend") r f.
Proof.
  exists (Platform Linux PPC32 true false). eexists. split; [reflexivity|]. split; [reflexivity|]. split; [reflexivity|]. split.
  - intros n H. apply number_of_spec. repeat (destruct H as [<-|H]; [vm_compute; reflexivity|]). destruct H.
  - split; [apply (mem_In entry_eqb entry_eqb_eq); vm_compute; reflexivity|]. split; [apply (mem_In entry_eqb entry_eqb_eq); vm_compute; reflexivity|].
    do 2 eexists. apply has_prototype_dget. vm_compute. reflexivity.
Qed.
Lemma timerfd_wrong : exists p n header, p = linux_x86_64 /\ has_number p n (T "timerfd") /\ kernel_names p = Some header /\
  In (n, T "timerfd_create") header /\ ~ (exists name, name <> T "timerfd_create" /\ In (n, name) header) /\
  (forall r f, ~ has_prototype (T "timerfd") r f) /\ exists r f, has_prototype (T "timerfd_create") r f.
Proof.
  exists linux_x86_64, 283. eexists. split; [reflexivity|]. split; [apply number_of_spec; vm_compute; reflexivity|].
  split; [reflexivity|]. split; [apply (mem_In entry_eqb entry_eqb_eq); vm_compute; reflexivity|].
  split; [|split].
  - intros (name & Hn & Hin).
    assert (forallb (fun e => negb (fst e =? 283) || text_eqb (snd e) (T "timerfd_create")) (x86_64_unistd ++ x32_unistd) = true) as H
      by (vm_compute; reflexivity).
    rewrite forallb_forall in H. specialize (H _ Hin). cbn [fst snd] in H. change (283 =? 283) with true in H. cbn [negb orb] in H.
    apply text_eqb_eq in H. congruence.
  - intros r f H. apply dget_has_prototype in H. revert H. vm_compute. discriminate.
  - do 2 eexists. apply has_prototype_dget. vm_compute. reflexivity.
Qed.

(** ** Arguments *)
Lemma arities name r f : has_prototype name r f -> arity name = Some (List.length f).
Proof.
  intros H. unfold has_prototype in H.
  assert (forallb (fun e => match arity (fst e) with Some n => (n =? List.length (snd (snd e)))%nat | None => false end) SYSCALL_PROTOTYPES = true)
    as Hc by (vm_compute; reflexivity).
  rewrite forallb_forall in Hc. specialize (Hc _ H). cbn [fst snd] in Hc. destruct (arity name) as [n|]; [|discriminate].
  apply Nat.eqb_eq in Hc. congruence.
Qed.
Lemma arities_all name n : arity name = Some n -> exists r f, has_prototype name r f.
Proof.
  unfold arity. destruct (find _ arguments) as [[k names]|] eqn:E; [|discriminate]. intros _. apply find_some in E as [Hin E]. cbn [snd] in E.
  assert (forallb (fun e => forallb (fun nm => match dget text_eqb nm SYSCALL_PROTOTYPES with Some _ => true | None => false end) (snd e)) arguments = true)
    as Hc by (vm_compute; reflexivity).
  rewrite forallb_forall in Hc. specialize (Hc _ Hin). cbn [snd] in Hc. rewrite forallb_forall in Hc.
  assert (In name names) as Hn. { apply existsb_exists in E as (y & Hy & Ey). apply text_eqb_eq in Ey. congruence. }
  specialize (Hc _ Hn). destruct (dget text_eqb name SYSCALL_PROTOTYPES) as [[r f]|] eqn:Ed; [|discriminate].
  exists r, f. apply (dget_In text_eqb text_eqb_iff) in Ed. exact Ed.
Qed.
Definition is_pathb (name : text) (pos : nat) : bool := existsb (fun e => (fst e =? pos)%nat && mem text_eqb name (snd e)) path_positions.
Lemma is_pathb_spec name pos : is_pathb name pos = true <-> is_path name pos.
Proof.
  unfold is_pathb, is_path. rewrite existsb_exists. split.
  - intros ([k names] & Hin & H). cbn [fst snd] in H. apply andb_true_iff in H as [H1 H2]. apply Nat.eqb_eq in H1. subst k.
    exists names. split; [exact Hin|now apply mem_text].
  - intros (names & H1 & H2). exists (pos, names). split; [exact H1|]. cbn [fst snd]. rewrite Nat.eqb_refl. now apply In_mem_text.
Qed.
Definition path_check (name : text) (f : list (text * text)) : bool :=
  forallb (fun pos => match nth_error f pos with
                      | Some (ty, nm) =>
                          if mem text_eqb nm FILENAME_ARGUMENTS
                          then is_pathb name pos && (text_eqb ty (T "const char *") || text_eqb ty (T "char *"))
                          else negb (is_pathb name pos) || mem text_eqb name file_system_calls
                      | None => negb (is_pathb name pos)
                      end) (seq 0 7).
Lemma path_checked name r f : has_prototype name r f -> path_check name f = true.
Proof.
  intros H. assert (forallb (fun e => path_check (fst e) (snd (snd e))) SYSCALL_PROTOTYPES = true) as Hc by (vm_compute; reflexivity).
  rewrite forallb_forall in Hc. specialize (Hc _ H). exact Hc.
Qed.
Lemma paths name r f pos ty nm : has_prototype name r f -> nth_error f pos = Some (ty, nm) -> In nm FILENAME_ARGUMENTS ->
  is_path name pos /\ (ty = T "const char *" \/ ty = T "char *").
Proof.
  intros H Hn Hin. pose proof (path_checked _ _ _ H) as Hc. unfold path_check in Hc. rewrite forallb_forall in Hc.
  assert (In pos (seq 0 7)) as Hp.
  { apply in_seq. assert (pos < List.length f)%nat by (apply nth_error_Some; congruence).
    destruct (prototypes_fine _ _ _ H) as (_ & Hl & _). lia. }
  specialize (Hc _ Hp). rewrite Hn, (In_mem_text _ _ Hin) in Hc. apply andb_true_iff in Hc as [H1 H2].
  split; [apply is_pathb_spec; exact H1|]. apply orb_true_iff in H2 as [H2|H2]; apply text_eqb_eq in H2; [left|right]; exact H2.
Qed.
Lemma paths_all name r f pos : has_prototype name r f -> is_path name pos -> ~ In name file_system_calls ->
  exists ty nm, nth_error f pos = Some (ty, nm) /\ In nm FILENAME_ARGUMENTS.
Proof.
  intros H Hp Hn. pose proof (path_checked _ _ _ H) as Hc. unfold path_check in Hc. rewrite forallb_forall in Hc.
  assert (In pos (seq 0 7)) as Hs.
  { apply in_seq. destruct Hp as (names & Hin & _). assert (forallb (fun e => (fst e <? 7)%nat) path_positions = true) as E by reflexivity.
    rewrite forallb_forall in E. specialize (E _ Hin). apply Nat.ltb_lt in E. cbn [fst] in E. lia. }
  specialize (Hc _ Hs). apply is_pathb_spec in Hp. rewrite Hp in Hc. destruct (nth_error f pos) as [[ty nm]|]; [|discriminate].
  exists ty, nm. split; [reflexivity|]. destruct (mem text_eqb nm FILENAME_ARGUMENTS) eqn:E; [apply mem_text; exact E|].
  exfalso. apply Hn. apply mem_text. destruct (mem text_eqb name file_system_calls); [reflexivity|discriminate Hc].
Qed.
Lemma mount_no_path : exists name r f, has_prototype name r f /\ is_path name 0 /\ is_path name 1 /\
  forall ty nm, In (ty, nm) f -> ~ In nm FILENAME_ARGUMENTS.
Proof.
  exists (T "mount"). do 2 eexists. split; [apply has_prototype_dget; vm_compute; reflexivity|].
  split; [apply is_pathb_spec; vm_compute; reflexivity|]. split; [apply is_pathb_spec; vm_compute; reflexivity|].
  intros ty nm Hin Hf. apply In_mem_text in Hf. revert Hf.
  repeat (destruct Hin as [[= <- <-]|Hin]; [vm_compute; discriminate|]). destruct Hin.
Qed.
