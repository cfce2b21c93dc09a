From Coq Require Import ZArith List Ascii String Bool Lia.
From Verif Require Import PyBase PyFacts Platform DbgModel DbgSpec DbgProofs2 SigModel SigSpec.
Import ListNotations.
Open Scope Z_scope.

Definition candidates (ns : namespace) (n : Z) : list text :=
  map fst (filter (fun e => starts_with (T "SIG") (fst e) && (snd e =? n)) ns).
Definition some_list (l : list text) : option (list text) := match l with [] => None | _ => Some l end.
Definition or_nil (o : option (list text)) : list text := match o with Some l => l | None => [] end.
Definition nonempty_values (d : list (Z * list text)) : Prop := forall k l, dget Z.eqb k d = Some l -> l <> [].

Lemma collect_spec ns : forall d, NoDup (map fst d) -> nonempty_values d ->
  let d' := fold_left collect ns d in
  NoDup (map fst d') /\ nonempty_values d' /\ forall n, dget Z.eqb n d' = some_list (or_nil (dget Z.eqb n d) ++ candidates ns n).
Proof.
  induction ns as [|[name v] ns IH]; intros d Hd Hne; cbn [fold_left].
  - split; [exact Hd|]. split; [exact Hne|]. intros n. cbn. rewrite app_nil_r. destruct (dget Z.eqb n d) as [l|] eqn:E; [|reflexivity].
    cbn. destruct l; [now destruct (Hne n [] E)|reflexivity].
  - unfold collect at 2 4 6. destruct (starts_with (T "SIG") name) eqn:Es; cbn [negb].
    + set (d1 := match dget Z.eqb v d with Some names => _ | None => _ end).
      assert (d1 = dset Z.eqb v (or_nil (dget Z.eqb v d) ++ [name]) d) as E1 by (unfold d1; destruct (dget Z.eqb v d); reflexivity).
      rewrite E1. destruct (IH (dset Z.eqb v (or_nil (dget Z.eqb v d) ++ [name]) d)) as (A & B & C).
      * apply (dset_NoDup Z.eqb Z.eqb_eq). exact Hd.
      * intros k l. destruct (Z.eq_dec k v) as [->|Hk].
        -- rewrite (dget_dset_same Z.eqb Z.eqb_eq). intros [= <-]. destruct (or_nil _); discriminate.
        -- rewrite (dget_dset_other Z.eqb Z.eqb_eq) by exact Hk. apply Hne.
      * split; [exact A|]. split; [exact B|]. intros n. rewrite C. unfold candidates. cbn [filter fst snd]. rewrite Es. cbn [andb].
        destruct (Z.eqb_spec v n) as [->|Hn].
        -- rewrite (dget_dset_same Z.eqb Z.eqb_eq). cbn [or_nil map fst]. rewrite <- app_assoc. reflexivity.
        -- rewrite (dget_dset_other Z.eqb Z.eqb_eq) by congruence. reflexivity.
    + destruct (IH d Hd Hne) as (A & B & C). split; [exact A|]. split; [exact B|]. intros n. rewrite C. unfold candidates. cbn [filter fst snd]. rewrite Es. reflexivity.
Qed.
Definition pick (names : list text) : option text :=
  match find_preferred PREFERRED_NAMES names with Some x => Some x | None => hd_error names end.
Lemma choose_spec d : forall r, NoDup (map fst d) ->
  forall n, dget Z.eqb n (fold_left choose d r) =
    match (if n =? 0 then None else match dget Z.eqb n d with Some l => pick l | None => None end) with Some x => Some x | None => dget Z.eqb n r end.
Proof.
  induction d as [|[v l] d IH]; intros r Hd n; cbn [fold_left dget].
  - destruct (n =? 0); reflexivity.
  - cbn in Hd. inversion Hd; subst. rewrite (IH _ H2). unfold choose at 1.
    assert (dget Z.eqb v d = None) as Hv by now apply (dget_None Z.eqb Z.eqb_eq).
    destruct (Z.eqb_spec n 0) as [->|Hn].
    + destruct (Z.eqb_spec v 0); [reflexivity|]. destruct (find_preferred _ _); [|destruct l; [reflexivity|]];
        now rewrite (dget_dset_other Z.eqb Z.eqb_eq) by congruence.
    + destruct (Z.eqb_spec n v) as [->|Hnv].
      * rewrite Hv. destruct (Z.eqb_spec v 0); [contradiction|]. unfold pick. destruct (find_preferred _ _).
        -- now rewrite (dget_dset_same Z.eqb Z.eqb_eq).
        -- destruct l; [reflexivity|]. now rewrite (dget_dset_same Z.eqb Z.eqb_eq).
      * destruct (match dget Z.eqb n d with Some l0 => pick l0 | None => None end); [reflexivity|].
        destruct (v =? 0); [reflexivity|]. destruct (find_preferred _ _); [|destruct l; [reflexivity|]];
          now rewrite (dget_dset_other Z.eqb Z.eqb_eq) by congruence.
Qed.
Lemma names_spec ns n : dget Z.eqb n (getSignalNames ns) = if n =? 0 then None else pick (candidates ns n).
Proof.
  unfold getSignalNames. destruct (collect_spec ns [] ltac:(constructor) ltac:(intros ? ? ?; discriminate)) as (A & _ & C).
  rewrite (choose_spec _ _ A), C. cbn. destruct (n =? 0); [reflexivity|]. destruct (candidates ns n); cbn; [reflexivity|].
  match goal with |- context [pick ?z] => destruct (pick z) end; reflexivity.
Qed.
Lemma candidates_spec ns n name : In name (candidates ns n) <-> names_signal ns n name.
Proof.
  unfold candidates, names_signal. rewrite in_map_iff. split.
  - intros ([x v] & E & H). cbn in E. subst x. apply filter_In in H as [H1 H2]. cbn [fst snd] in H2. apply andb_prop in H2 as [H2 H3].
    apply Z.eqb_eq in H3. subst v. split; [exact H1|]. apply starts_with_spec. exact H2.
  - intros [H1 H2]. exists (name, n). split; [reflexivity|]. apply filter_In. split; [exact H1|]. cbn [fst snd]. rewrite Z.eqb_refl, andb_true_r.
    apply starts_with_spec. exact H2.
Qed.
Lemma find_preferred_spec l names : match find_preferred l names with
  | Some x => exists a b, l = a ++ x :: b /\ In x names /\ forall y, In y a -> ~ In y names
  | None => forall y, In y l -> ~ In y names end.
Proof.
  induction l as [|x l IH]; cbn; [tauto|]. destruct (existsb (text_eqb x) names) eqn:E.
  - exists [], l. split; [reflexivity|]. split; [|intros y []]. apply existsb_exists in E as (y & H1 & H2). apply text_eqb_eq in H2. now subst.
  - assert (~ In x names) as Hx. { intros H. apply not_true_iff_false in E. apply E. apply existsb_exists. exists x. split; [exact H|apply text_eqb_refl]. }
    destruct (find_preferred l names) as [y|].
    + destruct IH as (a & b & -> & H1 & H2). exists (x :: a), b. split; [reflexivity|]. split; [exact H1|]. intros z [<-|Hz]; auto.
    + intros y [<-|Hy]; auto.
Qed.
Lemma pick_some l : l <> [] -> exists x, pick l = Some x /\ In x l.
Proof.
  intros H. unfold pick. pose proof (find_preferred_spec PREFERRED_NAMES l) as Hf. destruct (find_preferred _ _) as [x|].
  - destruct Hf as (a & b & _ & H1 & _). eauto.
  - destruct l as [|x l]; [congruence|]. exists x. split; [reflexivity|now left].
Qed.
Lemma known_name ns n : known_signal ns n -> names_signal ns n (signalName ns n).
Proof.
  intros [Hn (x & Hx)]. unfold signalName. rewrite names_spec. apply Z.eqb_neq in Hn. rewrite Hn.
  apply candidates_spec in Hx. destruct (pick_some (candidates ns n)) as (y & -> & Hy); [intros E; rewrite E in Hx; destruct Hx|].
  now apply candidates_spec.
Qed.
Lemma unknown_name ns n : ~ known_signal ns n -> signalName ns n = T "signal<" ++ str_int n ++ T ">".
Proof.
  intros H. unfold signalName. rewrite names_spec. destruct (Z.eqb_spec n 0) as [->|Hn]; [reflexivity|].
  assert (candidates ns n = []) as ->; [|reflexivity]. destruct (candidates ns n) as [|x l] eqn:E; [reflexivity|]. exfalso. apply H.
  split; [exact Hn|]. exists x. apply candidates_spec. rewrite E. now left.
Qed.
Lemma known_dec ns n : known_signal ns n \/ ~ known_signal ns n.
Proof.
  destruct (Z.eq_dec n 0) as [->|Hn]; [right; intros [H _]; congruence|].
  destruct (candidates ns n) as [|x l] eqn:E.
  - right. intros [_ (x & H)]. apply candidates_spec in H. rewrite E in H. destruct H.
  - left. split; [exact Hn|]. exists x. apply candidates_spec. rewrite E. now left.
Qed.
Lemma preferred_name ns n x : n <> 0 -> names_signal ns n x -> In x preferred ->
  (forall z, names_signal ns n z -> In z preferred -> z = x \/ before preferred x z) -> signalName ns n = x.
Proof.
  intros Hn Hx Hpx Hbest. unfold signalName. rewrite names_spec. pose proof Hn as Hn'. apply Z.eqb_neq in Hn'. rewrite Hn'.
  unfold pick. pose proof (find_preferred_spec PREFERRED_NAMES (candidates ns n)) as Hf. destruct (find_preferred _ _) as [z|].
  - destruct Hf as (a & b & E & H1 & H2). apply candidates_spec in H1.
    assert (In z preferred) as Hz by (change preferred with PREFERRED_NAMES; rewrite E; apply in_elt).
    destruct (Hbest z H1 Hz) as [->|(a' & b' & c' & E')]; [reflexivity|]. exfalso.
    change preferred with PREFERRED_NAMES in E'. assert (NoDup PREFERRED_NAMES) as Hnd.
    { unfold PREFERRED_NAMES. repeat constructor; vm_compute; intuition discriminate. }
    rewrite E' in E. assert (In x a) as Hxa.
    { assert (NoDup (a' ++ x :: b' ++ z :: c')) as Hnd' by (rewrite <- E'; exact Hnd).
      assert (a' ++ x :: b' = a) as <-; [|apply in_elt].
      replace (a' ++ x :: b' ++ z :: c') with ((a' ++ x :: b') ++ z :: c') in E, Hnd' by (rewrite <- app_assoc; reflexivity).
      assert (NoDup (a ++ z :: b)) as Hnd2 by (rewrite <- E; exact Hnd').
      clear -E Hnd' Hnd2. revert E Hnd' Hnd2. generalize (a' ++ x :: b'). clear. intros l. revert a. induction l as [|u l IH]; intros a E H1 H2.
      - destruct a as [|v a]; [reflexivity|]. cbn in E. injection E as <- E. cbn in H2. inversion H2; subst. exfalso. apply H3. apply in_elt.
      - destruct a as [|v a]; cbn in E; injection E as E1 E2.
        + subst. cbn in H1. inversion H1; subst. exfalso. apply H3. apply in_elt.
        + subst. cbn in H1, H2. inversion H1; inversion H2; subst. f_equal. now apply IH. }
    apply (H2 x Hxa). now apply candidates_spec.
  - exfalso. apply (Hf x Hpx). now apply candidates_spec.
Qed.
Lemma first_name ns1 ns2 n x : n <> 0 -> (exists r, x = T "SIG" ++ r) -> (forall z, ~ names_signal ns1 n z) ->
  (forall z, names_signal (ns1 ++ (x, n) :: ns2) n z -> ~ In z preferred) ->
  signalName (ns1 ++ (x, n) :: ns2) n = x.
Proof.
  intros Hn Hx H1 H2. unfold signalName. rewrite names_spec. apply Z.eqb_neq in Hn. rewrite Hn. unfold pick.
  pose proof (find_preferred_spec PREFERRED_NAMES (candidates (ns1 ++ (x, n) :: ns2) n)) as Hf. destruct (find_preferred _ _) as [z|].
  - destruct Hf as (a & b & E & H3 & _). apply candidates_spec in H3. destruct (H2 z H3). change preferred with PREFERRED_NAMES. rewrite E. apply in_elt.
  - unfold candidates. rewrite filter_app, map_app.
    assert (map fst (filter (fun e => starts_with (T "SIG") (fst e) && (snd e =? n)) ns1) = []) as ->.
    { fold (candidates ns1 n). destruct (candidates ns1 n) as [|z l] eqn:E; [reflexivity|]. destruct (H1 z). apply candidates_spec. rewrite E. now left. }
    cbn [filter fst snd]. rewrite Z.eqb_refl, andb_true_r. replace (starts_with (T "SIG") x) with true; [reflexivity|]. symmetry. apply starts_with_spec. exact Hx.
Qed.
Lemma digits_no_minus n : 0 <= n -> forall l, digits 10 n <> "-"%char :: l.
Proof.
  intros Hn l E. pose proof (digits_Forall (fun c => c <> "-"%char) 10 n ltac:(lia)) as H. rewrite E in H.
  assert (Forall (fun c => c <> "-"%char) ("-"%char :: l)) as H'.
  { apply H; [|exact Hn]. intros d Hd. assert (d = 0 \/ d = 1 \/ d = 2 \/ d = 3 \/ d = 4 \/ d = 5 \/ d = 6 \/ d = 7 \/ d = 8 \/ d = 9) as Hc by lia.
    repeat destruct Hc as [->|Hc]; subst; vm_compute; discriminate. }
  inversion H'; congruence.
Qed.
Lemma str_int_inj a b : str_int a = str_int b -> a = b.
Proof.
  unfold str_int, fmt_int. destruct (a <? 0) eqn:Ea, (b <? 0) eqn:Eb; zb; intros H.
  - injection H as H. apply digits_inj in H; lia.
  - destruct (digits_no_minus b Eb _ (eq_sym H)).
  - destruct (digits_no_minus a Ea _ H).
  - apply digits_inj in H; lia.
Qed.
Lemma names_distinct ns a b : NoDup (map fst ns) -> signalName ns a = signalName ns b -> a = b.
Proof.
  intros Hnd E. destruct (known_dec ns a) as [Ha|Ha], (known_dec ns b) as [Hb|Hb].
  - apply known_name in Ha, Hb. rewrite E in Ha. destruct Ha as [Ha _], Hb as [Hb _]. revert Ha Hb Hnd. generalize (signalName ns b). clear. intros x.
    induction ns as [|[y v] ns IH]; cbn; [tauto|]. intros [Ha|Ha] [Hb|Hb] Hnd; inversion Hnd; subst.
    + congruence.
    + injection Ha as -> ->. destruct H1. apply in_map_iff. exists (x, b). auto.
    + injection Hb as -> ->. destruct H1. apply in_map_iff. exists (x, a). auto.
    + auto.
  - apply known_name in Ha. rewrite E, (unknown_name ns b Hb) in Ha. destruct Ha as [_ (r & Hr)]. discriminate.
  - apply known_name in Hb. rewrite <- E, (unknown_name ns a Ha) in Hb. destruct Hb as [_ (r & Hr)]. discriminate.
  - rewrite !unknown_name in E by assumption. apply app_inv_head in E. apply app_inv_tail in E. now apply str_int_inj.
Qed.

(** ** Messages *)
Lemma exit_texts ns pid s c :
  exit_message ns pid s c =
    T "Process " ++ str_int pid ++
    (if match s with Some n => negb (n =? 0) | None => false end
     then T " killed by signal " ++ signalName ns (match s with Some n => n | None => 0 end)
     else match c with
          | Some 0 => T " exited normally"
          | Some n => T " exited with code " ++ str_int n
          | None => T " terminated abnormally"
          end).
Proof.
  unfold exit_message. destruct s as [s|]; [destruct (s =? 0) eqn:Es; cbn [negb]|].
  - destruct c as [[]|]; reflexivity.
  - reflexivity.
  - destruct c as [[]|]; reflexivity.
Qed.
Lemma status_text ns title m : valid m ->
  formatProcessStatus ns (encode m) title =
    title ++ match m with
             | Exited 0 => T " exited normally"
             | Exited code => T " exited with code " ++ str_int code
             | Killed signum core => T " killed by signal " ++ signalName ns signum ++ (if core then T " (core dumped)" else [])
             | Stopped signum => T " stopped by signal " ++ signalName ns signum
             | TraceEvent _ => T " stopped by signal " ++ signalName ns 5
             end.
Proof.
  intros Hv. unfold formatProcessStatus, WSTOPSIG, WIFSIGNALED. rewrite stopped_mod, core_bit, exitstatus_div, termsig_mod.
  destruct m as [code|signum core|signum|ev]; cbn [valid encode] in *.
  - assert ((code * 256) mod 256 = 0) as -> by now apply Z.mod_mul.
    assert ((code * 256) mod 128 = 0) as -> by (replace (code * 256) with ((code * 2) * 128) by ring; now apply Z.mod_mul).
    rewrite Z.div_mul by lia. rewrite Z.mod_small by lia. cbn [Z.eqb Z.leb Z.compare andb]. destruct code; cbn [Z.eqb negb]; reflexivity.
  - assert ((signum + (if core then 128 else 0)) mod 256 = signum + (if core then 128 else 0)) as -> by (apply Z.mod_small; destruct core; lia).
    assert ((signum + (if core then 128 else 0)) mod 128 = signum) as ->.
    { destruct core; [replace (signum + 128) with (signum + 1 * 128) by ring; rewrite Z.mod_add by lia|rewrite Z.add_0_r]; apply Z.mod_small; lia. }
    destruct (signum + (if core then 128 else 0) =? 127) eqn:E1; zb; [destruct core; lia|].
    replace ((1 <=? signum) && (signum <=? 126)) with true by (symmetry; apply andb_true_iff; rewrite !Z.leb_le; lia).
    destruct core.
    + replace (128 <=? signum + 128) with true by (symmetry; apply Z.leb_le; lia). rewrite <- !app_assoc. reflexivity.
    + replace (128 <=? signum + 0) with false by (symmetry; apply Z.leb_gt; lia). rewrite app_nil_r. reflexivity.
  - replace (signum * 256 + 127) with (127 + signum * 256) by ring. rewrite Z.mod_add, Z.div_add by lia.
    change (127 mod 256) with 127. change (127 / 256) with 0. rewrite Z.add_0_l, Z.mod_small by lia. reflexivity.
  - replace (ev * 65536 + 5 * 256 + 127) with (127 + (ev * 256 + 5) * 256) by ring. rewrite Z.mod_add, Z.div_add by lia.
    change (127 mod 256) with 127. change (127 / 256) with 0. rewrite Z.add_0_l.
    replace (ev * 256 + 5) with (5 + ev * 256) by ring. rewrite Z.mod_add by lia. reflexivity.
Qed.
Lemma core_text ns status title : (exists t, formatProcessStatus ns status title = t ++ T " (core dumped)" /\ Z.testbit status 7 = true) \/
  (Z.testbit status 7 = false /\ formatProcessStatus ns status title = 
     if WIFSTOPPED status then title ++ T " stopped by signal " ++ signalName ns (WSTOPSIG status)
     else if WIFSIGNALED status then title ++ T " killed by signal " ++ signalName ns (WTERMSIG status)
     else if WEXITSTATUS status =? 0 then title ++ T " exited normally" else title ++ T " exited with code " ++ str_int (WEXITSTATUS status)).
Proof.
  assert (WCOREDUMP status = Z.testbit status 7) as Hb.
  { unfold WCOREDUMP. destruct (Z.testbit status 7) eqn:E.
    - apply negb_true_iff, Z.eqb_neq. intros H. assert (Z.testbit (Z.land status 128) 7 = false) as H1 by (rewrite H; reflexivity).
      rewrite Z.land_spec, E in H1. discriminate.
    - apply negb_false_iff, Z.eqb_eq. apply Z.bits_inj'. intros n Hn. rewrite Z.land_spec, Z.bits_0.
      destruct (Z.eq_dec n 7) as [->|Hn7]; [now rewrite E|]. change 128 with (2 ^ 7). rewrite Z.pow2_bits_false by congruence. apply andb_false_r. }
  unfold formatProcessStatus. rewrite Hb. destruct (Z.testbit status 7).
  - left. eexists. split; reflexivity.
  - right. split; [reflexivity|]. destruct (WIFSTOPPED status); [reflexivity|]. destruct (WIFSIGNALED status); [reflexivity|].
    destruct (WEXITSTATUS status =? 0); reflexivity.
Qed.
(** ** The names on Linux *)
Lemma dget_missing {B} (l : list (Z * B)) n : ~ In n (map fst l) -> dget Z.eqb n l = None.
Proof.
  induction l as [|[k v] l IH]; [reflexivity|]. cbn [map fst In dget]. intros H. destruct (Z.eqb_spec n k) as [->|Hk]; [exfalso; apply H; now left|].
  apply IH. intros Hi. apply H. now right.
Qed.
Definition named_right (ns : namespace) (header : list (Z * text)) (n : Z) : bool :=
  match dget Z.eqb n header with Some name => text_eqb (signalName ns n) name | None => false end.
Definition in_header (header : list (Z * text)) (n : Z) : bool := existsb (Z.eqb n) (map fst header).
Lemma header_names ns header n : forallb (named_right ns header) (map fst header) = true -> forallb (in_header header) (map fst (getSignalNames ns)) = true ->
  signalName ns n = match dget Z.eqb n header with Some name => name | None => T "signal<" ++ str_int n ++ T ">" end.
Proof.
  intros H1 H2. destruct (in_header header n) eqn:Hin.
  - apply existsb_exists in Hin. destruct Hin as (m & Hm & He). apply Z.eqb_eq in He. subst m.
    pose proof (proj1 (forallb_forall _ _) H1 n Hm) as H. unfold named_right in H.
    destruct (dget Z.eqb n header) as [name|]; [|discriminate H]. apply text_eqb_eq. exact H.
  - assert (~ In n (map fst header)) as Hout.
    { intros Hi. enough (in_header header n = true) by congruence. apply existsb_exists. exists n. split; [exact Hi|apply Z.eqb_refl]. }
    rewrite (dget_missing header n Hout). unfold signalName. rewrite (dget_missing (getSignalNames ns) n); [reflexivity|].
    intros Hi. pose proof (proj1 (forallb_forall _ _) H2 n Hi). congruence.
Qed.
Lemma all_named_right : forallb (named_right linux_signals linux_header_signals) (map fst linux_header_signals) = true.
Proof. vm_compute. reflexivity. Qed.
Lemma all_in_header : forallb (in_header linux_header_signals) (map fst (getSignalNames linux_signals)) = true.
Proof. vm_compute. reflexivity. Qed.
Lemma linux_names n : signalName linux_signals n = match dget Z.eqb n linux_header_signals with Some name => name | None => T "signal<" ++ str_int n ++ T ">" end.
Proof. exact (header_names linux_signals linux_header_signals n all_named_right all_in_header). Qed.
Lemma event_texts ns pid_of id s q :
  event_message ns pid_of (ProcessExecution id) = T "Process " ++ str_int (pid_of id) ++ T " execution" /\
  event_message ns pid_of (NewProcessEvent id) = T "New process " ++ str_int (pid_of id) /\
  event_message ns pid_of (ProcessSignal s q) = T "Signal " ++ signalName ns s.
Proof. repeat split. Qed.
