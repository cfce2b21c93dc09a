From Coq Require Import ZArith List Ascii String Bool Lia.
From Verif Require Import PyBase PyFacts Platform IntModel IntSpec IntProofs CallModel MemModel MemSpec MemProofs MemProofs2 MemProofs3 MemFinal
  StructModel StructProofs RegModel RegSpec RegProofs BreakModel BreakSpec.
Import ListNotations.
Open Scope Z_scope.

(** ** /proc/pid/mem is never closed by reading and writing *)
Definition keeps {A} (m : M A) : Prop :=
  forall s, (s_fallback s = true -> s_fallback (fst (m s)) = true) /\
            (s_file s <> FileClosed -> s_file (fst (m s)) <> FileClosed).
Lemma keeps_lift {A} (r : res A) : keeps (lift r).
Proof. split; auto. Qed.
Lemma keeps_ret {A} (a : A) : keeps (ret a).
Proof. split; auto. Qed.
Lemma keeps_raise {A} e : keeps (@raise A e).
Proof. split; auto. Qed.
Lemma keeps_bind {A B} (m : M A) (f : A -> M B) : keeps m -> (forall a, keeps (f a)) -> keeps (mbind m f).
Proof.
  intros Hm Hf s. unfold mbind. destruct (Hm s) as [H1 H2]. destruct (m s) as [s' [a|e]]; cbn in *; [|auto].
  destruct (Hf a s'). auto.
Qed.
Lemma keeps_call E {A} (c : (request -> kernel_result) -> call A) : keeps (run_call E c).
Proof. intros s. unfold run_call. destruct (c _) as [rqs r]. cbn. auto. Qed.
Create HintDb keeps.
#[export] Hint Resolve keeps_lift keeps_ret keeps_raise keeps_call : keeps.
Ltac kp := repeat (first [solve [auto with keeps] | apply keeps_bind; [|intros]]).

Lemma keeps_rloop E fuel : forall data a n, keeps (readBytes_loop E fuel data a n).
Proof.
  induction fuel as [|f IH]; intros; cbn [readBytes_loop]; [kp|].
  destruct (_ =? _); [kp|]. unfold readWord. kp. destruct (_ <? _); [kp|]. apply IH.
Qed.
#[export] Hint Resolve keeps_rloop : keeps.
Lemma keeps_rptrace E a n : keeps (readBytes_ptrace E a n).
Proof. unfold readBytes_ptrace, readWord. destruct (negb _); kp. Qed.
Lemma keeps_read E a n : keeps (readBytes E a n).
Proof.
  intros s. unfold readBytes. destruct (has_ptrace_io _).
  { unfold readBytes_io. destruct (_ <? _); [auto|]. destruct (_ && _); auto. }
  destruct (has_proc _); [|apply keeps_rptrace]. destruct (s_fallback s) eqn:Ef.
  { destruct (keeps_rptrace E a n s) as [H1 H2]. split; [intros _; now apply H1|exact H2]. }
  unfold readBytes_procmem.
  assert (Hfb : forall s0, s_fallback (fst (readBytes_ptrace E a n (set_fallback s0))) = true /\
     (s_file s0 <> FileClosed -> s_file (fst (readBytes_ptrace E a n (set_fallback s0))) <> FileClosed)).
  { intros s0. destruct (keeps_rptrace E a n (set_fallback s0)) as [H1 H2]. split; [apply H1; reflexivity|exact H2]. }
  split; [congruence|]. intros Hcl.
  set (s1 := match s_file s, e_open E with FileNone, Ok _ => set_file s FileOpen | _, _ => s end).
  assert (s_file s1 <> FileClosed) as Hs1.
  { unfold s1. destruct (s_file s) eqn:Es; [destruct (e_open E)| |]; cbn; congruence. }
  destruct (s_file s1) eqn:E1; [| |congruence].
  - destruct (e_open E) as [|[]]; cbn; try congruence. apply Hfb. congruence.
  - destruct (_ <=? _); [cbn; congruence|]. destruct (a <? 0); [cbn; congruence|].
    destruct (e_read E _ _ _) as [d|[]]; cbn; try congruence.
    destruct (_ && _); [apply Hfb; congruence|cbn; congruence].
Qed.
#[export] Hint Resolve keeps_rptrace keeps_read : keeps.
Lemma keeps_wloop E fuel : forall a d, keeps (writeBytes_loop E fuel a d).
Proof.
  induction fuel as [|f IH]; intros; cbn [writeBytes_loop]; [kp|].
  destruct (_ <=? _); [|kp]. unfold writeWord. kp.
Qed.
#[export] Hint Resolve keeps_wloop : keeps.
Lemma keeps_waligned E a d : keeps (writeBytes_aligned E a d).
Proof.
  unfold writeBytes_aligned, writeWord. apply keeps_bind; [kp|]. intros [a1 d1].
  destruct (_ =? _); kp.
Qed.
#[export] Hint Resolve keeps_waligned : keeps.
Lemma keeps_write E a d : keeps (writeBytes E a d).
Proof.
  unfold writeBytes. destruct (has_ptrace_io _).
  - intros s. unfold writeBytes_io. destruct (io_write _ _ _) as [k n]. destruct (_ && _); cbn; auto.
  - unfold writeBytes_ptrace, writeWord. destruct (negb _); [|kp].
    apply keeps_bind; [kp|]. intros w. match goal with |- keeps (let (_, _) := ?t in _) => destruct t as [sz w2] end. kp.
Qed.
Lemma keeps_usable {A} (m : M A) s hi : keeps m -> file_usable s hi -> file_usable (fst (m s)) hi.
Proof. intros H [Hu|[Hu Hh]]; [left|right]; destruct (H s); auto. Qed.

(** ** Accessible ranges *)
Section Access.
  Context (E : penv).
  Hypothesis Hos : p_os (e_p E) = Linux.
  Hypothesis Hpid : good_pid E.
  Hypothesis Hf : faithful E.
  Hypothesis Hnf : never_fails E.
  Hypothesis Hop : open_ok E.
  Hypothesis Hbe : e_be E = Ctypes.
  Let p := e_p E.

  Lemma read_access a n s : accessible E s a n ->
    exists s' d, readBytes E a n s = (s', Ok d) /\ s_mem s' = s_mem s /\ stored (s_mem s) a d /\ zlen d = n /\
      forall b m, accessible E s b m -> accessible E s' b m.
  Proof.
    intros (Hn & Hs & Hm & Hk & Hu).
    assert (file_usable s (a + n)) as Hu'.
    { pose proof (word_size_pos (e_p E)). destruct Hu as [Hu|[A B]]; [now left|right; split; [exact A|lia]]. }
    destruct (readBytes_good E Hos Hpid Hf a n s Hnf Hop Hn Hs Hm Hu') as (s' & d & A & B & C & D & F).
    exists s', d. split; [exact A|]. split; [exact B|]. split; [exact C|]. split; [exact D|].
    intros b m (G1 & G2 & G3 & G4 & G5). split; [exact G1|]. split; [exact G2|].
    rewrite B. split; [exact G3|]. split; [exact G4|]. now apply F.
  Qed.
  Lemma written_words k k' a d b m : written k k' a d ->
    (words_mapped p k b m -> words_mapped p k' b m) /\ (words_pokable p k b m -> words_pokable p k' b m).
  Proof.
    intros Hw. split.
    - intros H x w Hx Hww y Hy. apply (written_mapped k k' a d y Hw). now apply (H x w Hx Hww).
    - intros H x w Hx Hww y Hy. destruct Hw as [_ Hw]. rewrite Hw. now apply (H x w Hx Hww).
  Qed.
  Lemma write_access a d s : accessible E s a (zlen d) ->
    exists s', writeBytes E a d s = (s', Ok tt) /\ written (s_mem s) (s_mem s') a d /\
      forall b m, accessible E s b m -> accessible E s' b m.
  Proof.
    intros (Hn & Hs & Hm & Hk & Hu).
    destruct (writeBytes E a d s) as [s' r] eqn:Ew.
    assert (r = Ok tt) as -> by (eapply (write_succeeds E a d s s' r); eauto).
    exists s'. split; [reflexivity|].
    pose proof (write_exact E a d s s' Hos Hpid Hf Hs Ew) as Hw. split; [exact Hw|].
    intros b m (G1 & G2 & G3 & G4 & G5). split; [exact G1|]. split; [exact G2|].
    destruct (written_words _ _ _ _ b m Hw) as [W1 W2]. split; [now apply W1|]. split; [now apply W2|].
    replace s' with (fst (writeBytes E a d s)) by now rewrite Ew. apply keeps_usable; [apply keeps_write|exact G5].
  Qed.

  (** ** Installing *)
  Lemma break_bytes_ok n : 0 < n -> (is_powerpc (p_cpu p) = true -> n = word_size p) ->
    exists d, break_bytes E n = Ok d /\ zlen d = n.
  Proof.
    intros Hn Hp. unfold break_bytes. fold p. destruct (is_powerpc (p_cpu p)).
    - destruct (proj1 (word_domain p 0x0cc00000)) as [d Hd].
      { unfold word_size. destruct (p_64bits p); cbn; lia. }
      exists d. split; [exact Hd|]. rewrite Hp by auto. unfold word2bytes in Hd. apply pack_length in Hd.
      rewrite zlen_nat, Hd. apply word_bytes_Z.
    - eexists. split; [reflexivity|]. rewrite zlen_nat, repeat_length. lia.
  Qed.
  Lemma break_size_ppc size : is_powerpc (p_cpu p) = true -> break_size E size = word_size p.
  Proof. intros H. unfold break_size. fold p. now rewrite H. Qed.

  Lemma new_breakpoint_ok a size s : accessible E s a (break_size E size) ->
    exists s' old new, new_breakpoint E a size s = (s', Ok (BP a (break_size E size) old true)) /\
      stored (s_mem s) a old /\ zlen old = break_size E size /\
      break_bytes E (break_size E size) = Ok new /\ zlen new = break_size E size /\
      written (s_mem s) (s_mem s') a new /\ forall b m, accessible E s b m -> accessible E s' b m.
  Proof.
    intros Ha. unfold new_breakpoint. set (n := break_size E size) in *.
    destruct (read_access a n s Ha) as (s1 & old & R1 & R2 & R3 & R4 & R5).
    destruct (break_bytes_ok n) as (new & N1 & N2); [apply Ha|intros Hp; now apply break_size_ppc|].
    destruct (write_access a new s1) as (s2 & W1 & W2 & W3).
    { rewrite N2. now apply R5. }
    exists s2, old, new. unfold mbind at 1. rewrite R1. rewrite N1. unfold mbind at 1, lift. unfold mbind. rewrite W1.
    split; [reflexivity|]. split; [exact R3|]. split; [exact R4|]. split; [reflexivity|]. split; [exact N2|].
    rewrite R2 in W2. split; [exact W2|]. auto.
  Qed.

  (** ** The invariant *)
  Record inv (k0 : kmem) (st : bstate) : Prop := {
    i_running : b_running st = true;
    i_keys : NoDup (map fst (b_dict st));
    i_dict : forall a id, In (a, id) (b_dict st) -> exists bp, nth_error (b_objs st) id = Some bp /\
       bp_installed bp = true /\ bp_address bp = a /\ zlen (bp_old bp) = bp_size bp /\
       stored k0 a (bp_old bp) /\ accessible E (b_mem st) a (bp_size bp) /\
       exists new, break_bytes E (bp_size bp) = Ok new /\ zlen new = bp_size bp /\ stored (s_mem (b_mem st)) a new;
    i_objs : forall id bp, nth_error (b_objs st) id = Some bp -> bp_installed bp = true -> In (bp_address bp, id) (b_dict st);
    i_apart : forall b b', live st b -> live st b' -> bp_address b <> bp_address b' ->
       apart (bp_address b) (bp_size b) (bp_address b') (bp_size b');
    i_rest : forall x, (forall bp, live st bp -> ~ covers bp x) -> k_byte (s_mem (b_mem st)) x = k_byte k0 x;
    i_poke : forall x, k_pokable (s_mem (b_mem st)) x = k_pokable k0 x
  }.

  Lemma inv_init st : b_running st = true -> no_breakpoints st -> inv (s_mem (b_mem st)) st.
  Proof.
    intros Hr [Ho Hd]. constructor; auto; rewrite ?Ho, ?Hd; try easy.
    - constructor.
    - intros [|id] bp H; discriminate.
    - intros b b' (a & id & H & _). rewrite Hd in H. easy.
  Qed.

  Lemma live_inv k0 st bp : inv k0 st -> live st bp ->
    exists id, In (bp_address bp, id) (b_dict st) /\ nth_error (b_objs st) id = Some bp /\ bp_installed bp = true /\
       zlen (bp_old bp) = bp_size bp /\ stored k0 (bp_address bp) (bp_old bp) /\
       accessible E (b_mem st) (bp_address bp) (bp_size bp) /\
       exists new, break_bytes E (bp_size bp) = Ok new /\ zlen new = bp_size bp /\ stored (s_mem (b_mem st)) (bp_address bp) new.
  Proof.
    intros I (a & id & Hin & Hn). destruct (i_dict _ _ I a id Hin) as (bp' & Hn' & A & <- & R).
    rewrite Hn in Hn'. injection Hn' as <-. exists id. auto.
  Qed.

  Lemma find_in_spec objs d x id : find_in x objs d = Some id ->
    exists a bp, In (a, id) d /\ nth_error objs id = Some bp /\ covers bp x.
  Proof.
    induction d as [|[a i] d IH]; cbn; [easy|]. destruct (nth_error objs i) as [bp|] eqn:En.
    - destruct ((_ <=? _) && (_ <? _)) eqn:Ec.
      + intros [= <-]. apply andb_prop in Ec as [E1 E2]. zb. exists a, bp. split; [now left|]. split; [exact En|]. split; lia.
      + intros H. destruct (IH H) as (a' & bp' & H1 & H2). exists a', bp'. split; [now right|exact H2].
    - intros H. destruct (IH H) as (a' & bp' & H1 & H2). exists a', bp'. split; [now right|exact H2].
  Qed.
  Lemma find_in_none objs d x : find_in x objs d = None ->
    forall a id bp, In (a, id) d -> nth_error objs id = Some bp -> ~ covers bp x.
  Proof.
    induction d as [|[a i] d IH]; cbn; [easy|]. destruct (nth_error objs i) as [bp|] eqn:En.
    - destruct ((_ <=? _) && (_ <? _)) eqn:Ec; [discriminate|]. intros H a' id' bp' [[= <- <-]|Hin] Hn.
      + rewrite En in Hn. injection Hn as <-. intros [H1 H2]. apply andb_false_iff in Ec as [Ec|Ec]; zb; lia.
      + eapply IH; eauto.
    - intros H a' id' bp' [[= <- <-]|Hin] Hn; [congruence|]. eapply IH; eauto.
  Qed.

  Lemma create_refused st a size id : findBreakpoint a st = Some id -> createBreakpoint E a size st = (st, Err EProcessError).
  Proof. intros H. unfold createBreakpoint. now rewrite H. Qed.

  Lemma dset_new_in (d : list (Z * nat)) a id : ~ In a (map fst d) ->
    forall b i, In (b, i) (dset Z.eqb a id d) <-> In (b, i) d \/ (b = a /\ i = id).
  Proof.
    intros H b i. rewrite (dset_keys_new Z.eqb Z.eqb_eq) by auto. rewrite in_app_iff. cbn. split.
    - intros [|[[= <- <-]|[]]]; auto.
    - intros [|[-> ->]]; auto.
  Qed.

  Lemma create_inv k0 st a size : inv k0 st ->
    accessible E (b_mem st) a (break_size E size) ->
    (forall bp, live st bp -> covers bp a \/ apart a (break_size E size) (bp_address bp) (bp_size bp)) ->
    inv k0 (fst (createBreakpoint E a size st)).
  Proof.
    intros I Ha Hdis. unfold createBreakpoint. destruct (findBreakpoint a st) as [id|] eqn:Ef; [exact I|].
    set (n := break_size E size) in *.
    assert (forall bp, live st bp -> ~ covers bp a) as Hnc.
    { intros bp (a' & id & H1 & H2). eapply find_in_none; eauto. }
    assert (forall bp, live st bp -> apart a n (bp_address bp) (bp_size bp)) as Hap.
    { intros bp Hl. destruct (Hdis bp Hl); [exfalso; eapply Hnc; eauto|auto]. }
    destruct (new_breakpoint_ok a size (b_mem st) Ha) as (m & old & new & R & S1 & S2 & S3 & S4 & S5 & S6). fold n in R, S2, S3, S4.
    rewrite R. cbn [fst].
    set (bp := BP a n old true) in *. set (id := List.length (b_objs st)) in *.
    assert (~ In a (map fst (b_dict st))) as Hnew.
    { intros H. apply in_map_iff in H as ((a' & i) & E1 & H). cbn in E1. subst a'.
      destruct (i_dict _ _ I a i H) as (b & B1 & B2 & B3 & B4 & B5 & B6 & _).
      apply (Hnc b); [exists a, i; auto|]. split; [lia|]. destruct B6 as (B6 & _). lia. }
    pose proof (dset_new_in (b_dict st) a id Hnew) as Hds.
    set (st' := with_dict _ _).
    assert (forall i b, nth_error (b_objs st) i = Some b -> nth_error (b_objs st ++ [bp]) i = Some b) as Hold.
    { intros i b H. rewrite nth_error_app1; auto. apply nth_error_Some. congruence. }
    assert (nth_error (b_objs st ++ [bp]) id = Some bp) as Hnth.
    { rewrite nth_error_app2 by lia. unfold id. now rewrite Nat.sub_diag. }
    assert (forall b, live st' b <-> live st b \/ b = bp) as Hlive.
    { intros b. split.
      - intros (a' & i & H1 & H2). cbn in H1, H2. apply Hds in H1 as [H1|[-> ->]].
        + left. exists a', i. split; [exact H1|]. destruct (i_dict _ _ I a' i H1) as (b' & B1 & _).
          rewrite (Hold _ _ B1) in H2. congruence.
        + right. congruence.
      - intros [(a' & i & H1 & H2)| ->].
        + exists a', i. cbn. split; [apply Hds; now left|now apply Hold].
        + exists a, id. cbn. split; [apply Hds; now right|exact Hnth]. }
    assert (forall x, a <= x < a + n \/ k_byte (s_mem m) x = k_byte (s_mem (b_mem st)) x) as Hout.
    { intros x. destruct (Z.lt_ge_cases x a); [right; apply (written_outside _ _ _ _ _ S5); lia|].
      destruct (Z.lt_ge_cases x (a + n)); [left; lia|right; apply (written_outside _ _ _ _ _ S5); lia]. }
    constructor.
    - exact (i_running _ _ I).
    - cbn. apply (dset_NoDup Z.eqb Z.eqb_eq). exact (i_keys _ _ I).
    - intros a' i H. cbn in H |- *. apply Hds in H as [H|[-> ->]].
      + destruct (i_dict _ _ I a' i H) as (b & B1 & B2 & B3 & B4 & B5 & B6 & nw & B7 & B8 & B9).
        exists b. split; [now apply Hold|]. split; [exact B2|]. split; [exact B3|]. split; [exact B4|].
        split; [exact B5|]. split; [now apply S6|]. exists nw. split; [exact B7|]. split; [exact B8|].
        intros j c Hj. destruct (Hout (a' + Z.of_nat j)) as [Hin| ->]; [|now apply B9].
        exfalso. assert (j < List.length nw)%nat by (apply nth_error_Some; congruence).
        assert (live st b) as Hlb by (exists a', i; auto). destruct (Hap b Hlb) as [Hx|Hx]; rewrite zlen_nat in B8; rewrite B3 in Hx; lia.
      + exists bp. split; [exact Hnth|]. split; [reflexivity|]. split; [reflexivity|]. split; [exact S2|].
        split.
        * intros j c Hj. cbn [bp_old bp] in Hj. rewrite <- (i_rest _ _ I).
          -- now apply S1.
          -- intros b Hl [C1 C2]. destruct (Hap b Hl) as [Hx|Hx];
               assert (j < List.length old)%nat by (apply nth_error_Some; congruence); rewrite zlen_nat in S2; lia.
        * split; [now apply S6|]. exists new. split; [exact S3|]. split; [exact S4|]. now apply (written_stored _ _ _ _ S5).
    - intros i b H Hi. cbn in H |- *. apply Hds. destruct (Nat.lt_ge_cases i id) as [Hlt|Hge].
      + rewrite nth_error_app1 in H by exact Hlt. left. now apply (i_objs _ _ I).
      + right. rewrite nth_error_app2 in H by exact Hge. fold id in H. destruct (i - id)%nat eqn:Ei; [|now destruct n0].
        injection H as <-. split; [reflexivity|lia].
    - intros b b' Hb Hb' Hne. apply Hlive in Hb as [Hb| ->]; apply Hlive in Hb' as [Hb'| ->].
      + now apply (i_apart _ _ I).
      + destruct (Hap b Hb); [right|left]; auto.
      + now apply Hap.
      + congruence.
    - intros x Hx. destruct (Hout x) as [Hin|Heq].
      + exfalso. apply (Hx bp); [apply Hlive; now right|exact Hin].
      + cbn. rewrite Heq. apply (i_rest _ _ I). intros b Hb. apply Hx. apply Hlive. now left.
    - intros x. cbn. destruct S5 as [_ S5]. rewrite S5. apply (i_poke _ _ I).
  Qed.

  Lemma nth_set_nth {A} (l : list A) n x i : nth_error (set_nth n x l) i =
    if (i =? n)%nat then match nth_error l i with Some _ => Some x | None => None end else nth_error l i.
  Proof.
    revert n i; induction l as [|y l IH]; intros n i.
    - destruct n; cbn; destruct i; cbn; [reflexivity|reflexivity|reflexivity|destruct (i =? n)%nat; reflexivity].
    - destruct n as [|n], i as [|i]; cbn [set_nth nth_error]; try reflexivity. rewrite IH. reflexivity.
  Qed.

  Lemma remove_inv K k0 st id : inv k0 st -> inv k0 (fst (desinstall E K id false st)).
  Proof.
    intros I. unfold desinstall. destruct (nth_error (b_objs st) id) as [bp|] eqn:En; [|exact I].
    destruct (bp_installed bp) eqn:Ei; cbn [negb]; [|exact I].
    pose proof (i_objs _ _ I id bp En Ei) as Hin.
    destruct (i_dict _ _ I _ _ Hin) as (bp' & B1 & B2 & B3 & B4 & B5 & B6 & nw & B7 & B8 & B9).
    rewrite En in B1. injection B1 as <-.
    cbn [b_running with_objs]. rewrite (i_running _ _ I).
    destruct (write_access (bp_address bp) (bp_old bp) (b_mem st)) as (m & W1 & W2 & W3); [now rewrite B4|].
    cbn [b_mem with_objs]. rewrite W1. cbn [fst].
    unfold removeBreakpoint. cbn [b_dict with_objs with_mem].
    assert (dmem Z.eqb (bp_address bp) (b_dict st) = true) as ->.
    { unfold dmem. now rewrite (dget_NoDup_In Z.eqb Z.eqb_eq _ _ _ (i_keys _ _ I) Hin). }
    cbn [fst]. set (st' := with_dict _ _). set (off := BP (bp_address bp) (bp_size bp) (bp_old bp) false) in *.
    assert (forall a i, In (a, i) (ddel Z.eqb (bp_address bp) (b_dict st)) <-> In (a, i) (b_dict st) /\ a <> bp_address bp) as Hdel.
    { intros a i. clear - I. pose proof (i_keys _ _ I) as Hnd.
      induction (b_dict st) as [|[a' i'] d IH]; cbn; [tauto|]. cbn in Hnd. inversion Hnd; subst.
      destruct (bp_address bp =? a') eqn:Ea.
      - apply Z.eqb_eq in Ea. subst a'. split.
        + intros H. split; [now right|]. intros ->. apply H1. apply in_map_iff. exists (bp_address bp, i). auto.
        + intros [[[= <- <-]|H] Hne]; [congruence|exact H].
      - cbn. rewrite IH by auto. apply Z.eqb_neq in Ea. split.
        + intros [[= <- <-]|[H Hne]]; [split; [now left|congruence]|split; [now right|exact Hne]].
        + intros [[[= <- <-]|H] Hne]; [now left|right; auto]. }
    assert (forall i b, i <> id -> nth_error (set_nth id off (b_objs st)) i = Some b <-> i <> id /\ nth_error (b_objs st) i = Some b) as Hobj.
    { intros i b Hne. rewrite nth_set_nth. replace (i =? id)%nat with false by (symmetry; now apply Nat.eqb_neq). tauto. }
    assert (forall a i, In (a, i) (b_dict st) -> a <> bp_address bp -> i <> id) as Hid.
    { intros a i H Hne ->. destruct (i_dict _ _ I a id H) as (b & C1 & _ & C3 & _). rewrite En in C1. injection C1 as <-. congruence. }
    assert (forall b, live st' b <-> live st b /\ bp_address b <> bp_address bp) as Hlive.
    { intros b. split.
      - intros (a & i & H1 & H2). cbn in H1, H2. apply Hdel in H1 as [H1 Hne].
        apply Hobj in H2 as [_ H2]; [|eapply Hid; eauto]. split; [exists a, i; auto|].
        destruct (i_dict _ _ I a i H1) as (b' & C1 & _ & C3 & _). congruence.
      - intros [Hl Hne]. destruct (live_inv _ _ _ I Hl) as (i & L1 & L2 & _).
        exists (bp_address b), i. cbn. split; [apply Hdel; auto|].
        assert (i <> id) by (eapply Hid; eauto). apply Hobj; auto. }
    assert (live st bp) as Hlbp by (exists (bp_address bp), id; auto).
    assert (forall x, covers bp x \/ k_byte (s_mem m) x = k_byte (s_mem (b_mem st)) x) as Hout.
    { intros x. destruct (Z.lt_ge_cases x (bp_address bp)); [right; apply (written_outside _ _ _ _ _ W2); lia|].
      destruct (Z.lt_ge_cases x (bp_address bp + bp_size bp)); [left; split; lia|right; apply (written_outside _ _ _ _ _ W2); lia]. }
    assert (forall x, covers bp x \/ (~ covers bp x /\ k_byte (s_mem m) x = k_byte (s_mem (b_mem st)) x)) as Hout'.
    { intros x. destruct (Z.lt_ge_cases x (bp_address bp)).
      - right. split; [intros []; lia|apply (written_outside _ _ _ _ _ W2); lia].
      - destruct (Z.lt_ge_cases x (bp_address bp + bp_size bp)); [left; split; lia|].
        right. split; [intros []; lia|apply (written_outside _ _ _ _ _ W2); lia]. }
    constructor.
    - exact (i_running _ _ I).
    - cbn. clear - I. pose proof (i_keys _ _ I) as Hnd. 
      assert (forall d : list (Z * nat), NoDup (map fst d) -> NoDup (map fst (ddel Z.eqb (bp_address bp) d))) as Hgen.
      { clear. induction d as [|[a i] d IH]; cbn; intros H; [constructor|]. inversion H; subst.
        destruct (_ =? _); auto. cbn. constructor; auto. intros Hc. apply H2.
        apply (ddel_keys_In Z.eqb Z.eqb_eq) in Hc; auto. tauto. }
      now apply Hgen.
    - intros a i H. cbn in H |- *. apply Hdel in H as [H Hne]. pose proof (Hid a i H Hne) as Hii.
      destruct (i_dict _ _ I a i H) as (b & C1 & C2 & C3 & C4 & C5 & C6 & n2 & C7 & C8 & C9).
      exists b. split; [apply Hobj; auto|]. split; [exact C2|]. split; [exact C3|]. split; [exact C4|]. split; [exact C5|].
      split; [now apply W3|]. exists n2. split; [exact C7|]. split; [exact C8|].
      intros j c Hj. destruct (Hout (a + Z.of_nat j)) as [[D1 D2]| ->]; [|now apply C9].
      exfalso. assert (j < List.length n2)%nat by (apply nth_error_Some; congruence). rewrite zlen_nat in C8.
      assert (live st b) as Hlb by (exists a, i; auto).
      destruct (i_apart _ _ I b bp Hlb Hlbp ltac:(congruence)) as [Hx|Hx]; rewrite C3 in Hx; lia.
    - intros i b H Hi. cbn in H |- *. rewrite nth_set_nth in H. destruct (i =? id)%nat eqn:Eid.
      + rewrite (proj1 (Nat.eqb_eq _ _) Eid), En in H. injection H as <-. discriminate.
      + apply Hdel. pose proof (i_objs _ _ I i b H Hi) as Hib. split; [exact Hib|]. intros Hc. apply Nat.eqb_neq in Eid. apply Eid.
        rewrite Hc in Hib. pose proof (dget_NoDup_In Z.eqb Z.eqb_eq _ _ _ (i_keys _ _ I) Hib) as E1.
        pose proof (dget_NoDup_In Z.eqb Z.eqb_eq _ _ _ (i_keys _ _ I) Hin) as E2. congruence.
    - intros b b' Hb Hb'. apply Hlive in Hb as [Hb _]. apply Hlive in Hb' as [Hb' _]. now apply (i_apart _ _ I).
    - intros x Hx. cbn. destruct (Hout' x) as [[D1 D2]|[Hnc Heq]].
      + destruct W2 as [W2 _]. rewrite W2. replace (bp_address bp <=? x) with true by blia.
        destruct (nth_error (bp_old bp) (Z.to_nat (x - bp_address bp))) as [c|] eqn:Ec.
        * pose proof (B5 _ _ Ec) as B5'. rewrite <- B5'. f_equal. lia.
        * apply nth_error_None in Ec. rewrite zlen_nat in B4. lia.
      + rewrite Heq. apply (i_rest _ _ I). intros b Hb Hc. destruct (Z.eq_dec (bp_address b) (bp_address bp)) as [Ee|Ee].
        * destruct (live_inv _ _ _ I Hb) as (i & L1 & L2 & _). rewrite Ee in L1.
          pose proof (dget_NoDup_In Z.eqb Z.eqb_eq _ _ _ (i_keys _ _ I) L1) as E1.
          pose proof (dget_NoDup_In Z.eqb Z.eqb_eq _ _ _ (i_keys _ _ I) Hin) as E2.
          assert (i = id) as -> by congruence. rewrite En in L2. injection L2 as <-. now apply Hnc.
        * apply (Hx b); [apply Hlive; auto|exact Hc].
    - intros x. cbn. destruct W2 as [_ W2]. rewrite W2. apply (i_poke _ _ I).
  Qed.
End Access.
