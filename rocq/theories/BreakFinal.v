From Coq Require Import ZArith List Ascii String Bool Lia.
From Verif Require Import PyBase PyFacts Platform IntModel IntSpec IntProofs CallModel MemModel MemSpec MemProofs MemProofs2 MemProofs3 MemExamples MemFinal
  StructModel StructProofs RegModel RegSpec RegProofs RegFinal BreakModel BreakSpec BreakProofs.
Import ListNotations.
Open Scope Z_scope.

Lemma find_live st a id : findBreakpoint a st = Some id ->
  exists bp, nth_error (b_objs st) id = Some bp /\ live st bp /\ covers bp a.
Proof.
  intros H. destruct (find_in_spec _ _ _ _ H) as (a' & bp & H1 & H2 & H3). exists bp.
  split; [exact H2|]. split; [exists a', id; auto|exact H3].
Qed.
Lemma find_iff st a : (exists id, findBreakpoint a st = Some id) <-> exists bp, live st bp /\ covers bp a.
Proof.
  split.
  - intros [id H]. destruct (find_live _ _ _ H) as (bp & _ & H2 & H3). eauto.
  - intros (bp & (a' & id & H1 & H2) & H3). destruct (findBreakpoint a st) as [i|] eqn:Ef; [eauto|].
    exfalso. eapply find_in_none; eauto.
Qed.

Lemma install E st a size : plain E -> accessible E (b_mem st) a (break_size E size) ->
  (forall bp, live st bp -> ~ covers bp a) ->
  exists st' id old new, createBreakpoint E a size st = (st', Ok id) /\
    nth_error (b_objs st') id = Some (BP a (break_size E size) old true) /\ findBreakpoint a st' <> None /\
    stored (s_mem (b_mem st)) a old /\ zlen old = break_size E size /\
    written (s_mem (b_mem st)) (s_mem (b_mem st')) a new /\ zlen new = break_size E size /\
    (is_powerpc (p_cpu (e_p E)) = false -> forall b, In b new -> b2z b = 0xcc).
Proof.
  intros (Ho & Hb & Hp & Hf & Hn & Hop) Ha Hnc.
  destruct (new_breakpoint_ok E Ho Hp Hf Hn Hop Hb a size (b_mem st) Ha) as (m & old & new & R & S1 & S2 & S3 & S4 & S5 & S6).
  unfold createBreakpoint. destruct (findBreakpoint a st) as [i|] eqn:Ef.
  { destruct (find_live _ _ _ Ef) as (bp & _ & H2 & H3). exfalso. eapply Hnc; eauto. }
  rewrite R. set (id := List.length (b_objs st)). eexists _, id, old, new. split; [reflexivity|].
  cbn [b_objs b_mem with_dict with_objs with_mem].
  assert (nth_error (b_objs st ++ [BP a (break_size E size) old true]) id = Some (BP a (break_size E size) old true)) as Hnth.
  { rewrite nth_error_app2 by (unfold id; lia). unfold id. now rewrite Nat.sub_diag. }
  split; [exact Hnth|]. split.
  { intros Hc. unfold findBreakpoint in Hc. cbn [b_objs b_dict with_dict with_objs with_mem] in Hc.
    destruct Ha as (Ha & _).
    refine (find_in_none _ _ _ Hc a id (BP a (break_size E size) old true) _ Hnth _).
    - clear. induction (b_dict st) as [|[k v] d IH]; cbn; [auto|]. destruct (a =? k) eqn:Ek; [|right; auto].
      left. apply Z.eqb_eq in Ek. now subst.
    - split; cbn; lia. }
  split; [exact S1|]. split; [exact S2|]. split; [exact S5|]. split; [exact S4|].
  intros Hpp b Hb'. unfold break_bytes in S3. rewrite Hpp in S3. injection S3 as <-. apply repeat_spec in Hb'. now subst.
Qed.

Lemma acts_inv E K k0 l : plain E -> forall st, inv E k0 st -> well_behaved E K st l -> inv E k0 (fold_left (fun s a => act E K a s) l st).
Proof.
  intros (Ho & Hb & Hp & Hf & Hn & Hop). induction l as [|a l IH]; intros st I Hw; [exact I|].
  cbn [fold_left]. apply IH; [|apply Hw]. destruct Hw as [Hw _]. destruct a as [address size|id].
  - destruct Hw. apply create_inv; assumption.
  - apply remove_inv; assumption.
Qed.
Lemma sequences E K st l : plain E -> b_running st = true -> no_breakpoints st -> well_behaved E K st l ->
  let st' := fold_left (fun s a => act E K a s) l st in
  (forall x, (forall bp, live st' bp -> ~ covers bp x) ->
     k_byte (s_mem (b_mem st')) x = k_byte (s_mem (b_mem st)) x) /\
  (forall bp, live st' bp ->
     zlen (bp_old bp) = bp_size bp /\ stored (s_mem (b_mem st)) (bp_address bp) (bp_old bp) /\
     exists new, break_bytes E (bp_size bp) = Ok new /\ zlen new = bp_size bp /\
       stored (s_mem (b_mem st')) (bp_address bp) new).
Proof.
  intros HE Hr Hn Hw st'. pose proof (acts_inv E K _ l HE st (inv_init E st Hr Hn) Hw) as I. fold st' in I. split.
  - exact (i_rest _ _ _ I).
  - intros bp Hl. destruct (live_inv _ _ _ _ I Hl) as (id & _ & _ & _ & A & B & _ & C). auto.
Qed.
Lemma all_removed E K st l : plain E -> b_running st = true -> no_breakpoints st -> well_behaved E K st l ->
  let st' := fold_left (fun s a => act E K a s) l st in
  (forall id bp, nth_error (b_objs st') id = Some bp -> bp_installed bp = false) ->
  forall x, k_byte (s_mem (b_mem st')) x = k_byte (s_mem (b_mem st)) x.
Proof.
  intros HE Hr Hn Hw st' Hall x. pose proof (acts_inv E K _ l HE st (inv_init E st Hr Hn) Hw) as I. fold st' in I.
  apply (i_rest _ _ _ I). intros bp Hl. destruct (live_inv _ _ _ _ I Hl) as (id & _ & H1 & H2 & _).
  rewrite (Hall _ _ H1) in H2. discriminate.
Qed.

Lemma desinstall_objs E K id ip st bp : nth_error (b_objs (fst (desinstall E K id ip st))) id = Some bp -> bp_installed bp = false.
Proof.
  unfold desinstall. destruct (nth_error (b_objs st) id) as [b|] eqn:En; [|cbn; congruence].
  destruct (bp_installed b) eqn:Ei; cbn [negb]; [|cbn; congruence].
  set (off := BP _ _ _ false). set (o := set_nth id off (b_objs st)). intros H.
  enough (nth_error o id = Some bp) as Ho.
  { unfold o in Ho. rewrite nth_set_nth, Nat.eqb_refl, En in Ho. injection Ho as <-. reflexivity. }
  rewrite <- H. f_equal. cbn [b_running with_objs b_mem].
  assert (forall s, b_objs s = o -> o = b_objs (fst (removeBreakpoint b s))) as Hrm.
  { intros s Hs. unfold removeBreakpoint. destruct (dmem _ _ _); symmetry; exact Hs. }
  destruct (b_running st).
  - destruct (writeBytes E _ _ _) as [m [u|e]]; [|reflexivity]. destruct ip.
    + cbn. destruct (setInstrPointer K (e_p E) _ _) as [rg [u'|e]]; [|reflexivity]. now apply Hrm.
    + now apply Hrm.
  - destruct ip.
    + cbn. destruct (setInstrPointer K (e_p E) _ _) as [rg [u'|e]]; [|reflexivity]. now apply Hrm.
    + now apply Hrm.
Qed.
Lemma desinstall_twice E K id ip ip' st : let st' := fst (desinstall E K id ip st) in
  desinstall E K id ip' st' = (st', Ok tt).
Proof.
  intros st'. pose proof (desinstall_objs E K id ip st) as H. fold st' in H. clearbody st'.
  unfold desinstall. destruct (nth_error (b_objs st') id) as [bp|] eqn:En; [|reflexivity].
  now rewrite (H bp eq_refl).
Qed.

Lemma create_error_iff E st a size : plain E -> accessible E (b_mem st) a (break_size E size) ->
  snd (createBreakpoint E a size st) = Err EProcessError <-> exists bp, live st bp /\ covers bp a.
Proof.
  intros HE Ha. rewrite <- find_iff. split.
  - intros H. destruct (findBreakpoint a st) as [i|] eqn:Ef; [eauto|exfalso].
    destruct (install E st a size HE Ha) as (st' & id & old & new & R & _); [|rewrite R in H; discriminate].
    intros bp (a' & i & H1 & H2). eapply find_in_none; eauto.
  - intros [id H]. now rewrite (create_refused E st a size id H).
Qed.
Lemma create_refused_live E st a size bp : live st bp -> covers bp a ->
  createBreakpoint E a size st = (st, Err EProcessError).
Proof.
  intros Hl Hc. destruct (proj2 (find_iff st a) (ex_intro _ bp (conj Hl Hc))) as [id H].
  now apply create_refused with id.
Qed.

Lemma desinstall_ip E K st id bp st' :
  p_os (e_p E) = Linux -> native (e_p E) -> p_cpu (e_p E) <> OtherCPU -> rk_get K = None -> (forall r, rk_set K r = None) ->
  whole (e_p E) (r_regs (b_regs st)) ->
  nth_error (b_objs st) id = Some bp -> bp_installed bp = true -> 0 <= bp_address bp < 2 ^ (8 * word_size (e_p E)) ->
  desinstall E K id true st = (st', Ok tt) ->
  snd (getInstrPointer K (e_p E) (b_regs st')) = Ok (bp_address bp).
Proof.
  intros Ho Hn Hc Hg Hs Hw En Ei Ha H.
  destruct (set_pc K (e_p E) (b_regs st) (bp_address bp) Ho Hn Hc Hg Hs Hw) as (rg & sz & S1 & S2 & ->).
  rewrite Z.mod_small in S2 by exact Ha.
  unfold desinstall in H. rewrite En, Ei in H. cbn [negb] in H.
  assert (forall s, (let '(s, r) := (let (rg, r) := setInstrPointer K (e_p E) (bp_address bp) (b_regs s) in (with_regs s rg, r)) in
            match r with Ok _ => removeBreakpoint bp s | Err e => (s, Err e) end) = (st', Ok tt) ->
            b_regs s = b_regs st -> snd (getInstrPointer K (e_p E) (b_regs st')) = Ok (bp_address bp)) as Hfin.
  { intros s H1 H2. rewrite H2, S1 in H1. unfold removeBreakpoint in H1. destruct (dmem _ _ _); [|discriminate].
    injection H1 as <-. exact S2. }
  destruct (b_running _).
  - destruct (writeBytes E _ _ _) as [m [u|e]]; [|discriminate]. eapply Hfin; [exact H|reflexivity].
  - eapply Hfin; [exact H|reflexivity].
Qed.

(** ** Concrete cases *)
Definition xstate (k : kmem) (p : platform) : bstate := BState (fresh k) (RState (zeros p) []) true [] [].
Definition xenv (p : platform) : penv := prefix_env Ctypes p.
Lemma xenv_plain p : p_os p = Linux -> plain (xenv p).
Proof.
  intros H. split; [exact H|]. split; [reflexivity|]. split; [split; easy|]. split; [apply prefix_env_faithful|].
  split; [apply prefix_env_never_fails|]. left. reflexivity.
Qed.
Lemma page_accessible p a n : 4096 <= a -> 0 < n -> a + n <= 8192 -> accessible (xenv p) (fresh page_mem) a n.
Proof.
  intros H1 H2 H3. split; [exact H2|]. split.
  { split; [lia|]. split; [|discriminate]. cbn. unfold word_size. destruct (p_64bits p); lia. }
  split; [now apply page_mapped|]. split; [apply page_pokable|]. right. split; [discriminate|].
  cbn. unfold word_size. destruct (p_64bits p); lia.
Qed.

(** Two overlapping breakpoints, removed in creation order. *)
Lemma overlap_corrupts : exists E K st l, plain E /\ p_cpu (e_p E) = X86_64 /\ b_running st = true /\ no_breakpoints st /\
  let st' := fold_left (fun s a => act E K a s) l st in
  (forall id bp, nth_error (b_objs st') id = Some bp -> bp_installed bp = false) /\ b_dict st' = [] /\
  exists x, k_byte (s_mem (b_mem st')) x = Some (z2b 0xcc) /\ k_byte (s_mem (b_mem st)) x = Some (z2b x) /\ z2b x <> z2b 0xcc.
Proof.
  exists (xenv linux_x86_64), good_kernel, (xstate page_mem linux_x86_64), [Create 4098 None; Create 4097 (Some 2); Remove 0; Remove 1].
  split; [now apply xenv_plain|]. split; [reflexivity|]. split; [reflexivity|]. split; [split; reflexivity|].
  set (st' := fold_left _ _ _). split; [|split].
  - assert (map bp_installed (b_objs st') = [false; false]) as H by (vm_compute; reflexivity).
    intros id bp Hn. apply (map_nth_error bp_installed) in Hn. rewrite H in Hn.
    destruct id as [|[|[|id]]]; cbn in Hn; congruence.
  - vm_compute. reflexivity.
  - exists 4098. split; [vm_compute; reflexivity|]. split; [vm_compute; reflexivity|vm_compute; discriminate].
Qed.

(** ** The trap *)
Definition bytes_are (d : list byte) (l : list Z) : Prop := map b2z d = l.
Lemma trap_intel E : is_intel (p_cpu (e_p E)) = true ->
  exists d l, break_bytes E (break_size E None) = Ok d /\ trap_instruction (p_cpu (e_p E)) (p_bigendian (e_p E)) = Some l /\ bytes_are d l.
Proof.
  intros H. unfold break_bytes, break_size. destruct (p_cpu (e_p E)); try discriminate; exists [z2b 0xcc], [0xcc]; repeat split; reflexivity.
Qed.
Lemma trap_ppc E : is_powerpc (p_cpu (e_p E)) = true -> p_64bits (e_p E) = false \/ p_bigendian (e_p E) = false ->
  exists d l, break_bytes E (break_size E None) = Ok d /\ trap_instruction (p_cpu (e_p E)) (p_bigendian (e_p E)) = Some l /\
    bytes_are (firstn 4 d) l.
Proof.
  intros H H'. unfold break_bytes, break_size. rewrite H. clear -H H'.
  destruct (e_p E) as [o c [|] [|]]; cbn [p_cpu p_64bits p_bigendian] in *; try (destruct H'; discriminate);
    destruct c; try discriminate; eexists _, _; (split; [vm_compute; reflexivity|]); split; reflexivity.
Qed.
(** 64-bit big-endian PowerPC: the low half of the doubleword is at address+4. *)
Lemma trap_ppc64 : exists E d l, e_p E = linux_ppc64 /\ break_bytes E (break_size E None) = Ok d /\
  trap_instruction (p_cpu (e_p E)) (p_bigendian (e_p E)) = Some l /\ map b2z (firstn 4 d) <> l.
Proof.
  exists (xenv linux_ppc64). eexists _, _. split; [reflexivity|]. split; [vm_compute; reflexivity|].
  split; [reflexivity|]. vm_compute. discriminate.
Qed.
Lemma trap_others E d l : is_intel (p_cpu (e_p E)) = false -> is_powerpc (p_cpu (e_p E)) = false -> p_cpu (e_p E) <> OtherCPU ->
  trap_instruction (p_cpu (e_p E)) (p_bigendian (e_p E)) = Some l ->
  (forall n, break_bytes E n = Ok d -> 0 < n -> firstn 1 (map b2z d) <> firstn 1 l).
Proof.
  intros Hi Hp Hc Hl n Hd Hn. unfold break_bytes in Hd. rewrite Hp in Hd. injection Hd as <-.
  destruct (Z.to_nat n) as [|m] eqn:Em; [lia|]. cbn [repeat map firstn].
  replace (b2z (z2b 0xcc)) with 0xcc by reflexivity.
  destruct (p_cpu (e_p E)), (p_bigendian (e_p E)); try discriminate; injection Hl as <-; cbn; discriminate.
Qed.
(** Two bytes over the end of the writable memory. *)
Definition readonly_tail : kmem :=
  KMem (fun x => if (4096 <=? x) && (x <? 12288) then Some (z2b x) else None) (fun x => x <? 8192).
Lemma failed_create : exists E st a size, plain E /\ p_cpu (e_p E) = X86_64 /\ no_breakpoints st /\
  words_mapped (e_p E) (s_mem (b_mem st)) a size /\
  match createBreakpoint E a (Some size) st with
  | (st', Err (EPtraceError _)) =>
      no_breakpoints st' /\ k_byte (s_mem (b_mem st')) a = Some (z2b 0xcc) /\ k_byte (s_mem (b_mem st)) a = Some (z2b a) /\
      z2b a <> z2b 0xcc
  | _ => False
  end.
Proof.
  exists (xenv linux_x86_64), (xstate readonly_tail linux_x86_64), 8184, 9.
  split; [now apply xenv_plain|]. split; [reflexivity|]. split; [split; reflexivity|]. split.
  { intros x w Hx [[q Hq] Hw] y Hy. cbn in *.
    assert (4096 <= y < 12288) by lia.
    replace (4096 <=? y) with true by lia. replace (y <? 12288) with true by lia. discriminate. }
  set (r := createBreakpoint _ _ _ _).
  assert (match snd r with Err (EPtraceError _) => true | _ => false end = true) as H by (vm_compute; reflexivity).
  assert (b_objs (fst r) = [] /\ b_dict (fst r) = []) as Hn by (split; vm_compute; reflexivity).
  assert (k_byte (s_mem (b_mem (fst r))) 8184 = Some (z2b 0xcc)) as Hb by (vm_compute; reflexivity).
  destruct r as [st' [id|[]]]; try discriminate. split; [exact Hn|]. split; [exact Hb|]. split; [reflexivity|vm_compute; discriminate].
Qed.
Lemma no_create_no_change E st a size : findBreakpoint a st <> None -> fst (createBreakpoint E a size st) = st.
Proof. unfold createBreakpoint. destruct (findBreakpoint a st); [reflexivity|congruence]. Qed.
Lemma remove_spec bp st : NoDup (map fst (b_dict st)) ->
  (dget Z.eqb (bp_address bp) (b_dict st) = None -> removeBreakpoint bp st = (st, Err EKeyError)) /\
  (dget Z.eqb (bp_address bp) (b_dict st) <> None -> exists st', removeBreakpoint bp st = (st', Ok tt) /\ b_mem st' = b_mem st /\ b_objs st' = b_objs st /\
     forall a, dget Z.eqb a (b_dict st') = if a =? bp_address bp then None else dget Z.eqb a (b_dict st)).
Proof.
  intros Hn. unfold removeBreakpoint, dmem. split.
  - intros ->. reflexivity.
  - destruct (dget Z.eqb (bp_address bp) (b_dict st)); [|easy]. intros _. eexists. split; [reflexivity|]. destruct st. cbn. split; [reflexivity|]. split; [reflexivity|].
    intros a. destruct (Z.eqb_spec a (bp_address bp)) as [->|Ha]; [apply dget_ddel_same; [apply Z.eqb_eq|exact Hn]|apply dget_ddel_other; [apply Z.eqb_eq|exact Ha]].
Qed.
