(** * ExactProofs2: proofs of further exact conditions. *)
From Coq Require Import ZArith List Ascii String Bool Lia.
From Verif Require Import PyBase PyFacts Platform ProcModel ProcSpec ProcProofs SigModel DbgSpec SigProofs FaultModel FaultSpec FaultProofs FaultProofs4 StraceModel StraceSpec StraceProofs StraceProofs2 StraceProofs3 ExactSpec2.
Import ListNotations.
Open Scope Z_scope.

(** ** C50 *)
Lemma items_rejected valid items : forall only lines, only_items valid only items = inr lines ->
  exists pre b post x, items = pre ++ b :: post /\ strip b <> [] /\ ~ In (strip b) only /\ ~ In (strip b) (map strip pre) /\ ~ In x valid /\ (In x only \/ exists a, In a pre /\ x = strip a /\ x <> []).
Proof.
  induction items as [|item items IH]; intros only lines H; [discriminate H|]. cbn [only_items] in H. unfold only_item in H. cbv zeta in H.
  assert (forall only', only_items valid only' items = inr lines -> (forall y, In y only' <-> In y only \/ (y = strip item /\ y <> [])) -> exists pre b post x, item :: items = pre ++ b :: post /\ strip b <> [] /\ ~ In (strip b) only /\ ~ In (strip b) (map strip pre) /\ ~ In x valid /\ (In x only \/ exists a, In a pre /\ x = strip a /\ x <> [])) as Hgo.
  { intros only' E Ho. destruct (IH _ _ E) as (pre & b & post & x & -> & Hb & Hb1 & Hb2 & Hx & Hd). exists (item :: pre), b, post, x.
    split; [reflexivity|]. split; [exact Hb|]. split; [intros Hi; apply Hb1, Ho; now left|]. split; [intros [Hi|Hi]; [apply Hb1, Ho; right; auto|auto]|]. split; [exact Hx|].
    destruct Hd as [Hd|(a & Ha & Ea)]; [apply Ho in Hd as [Hd|(Hd & Hn)]; [now left|]; right; exists item; split; [now left|auto]|right; exists a; split; [now right|exact Ea]]. }
  destruct (strip item) as [|c t] eqn:Es; cbn [orb] in H.
  - apply (Hgo only H). intros y. split; [now left|]. intros [Hy|(-> & Hy)]; [exact Hy|congruence].
  - destruct (mem (c :: t) only) eqn:Em.
    + apply mem_In in Em. apply (Hgo only H). intros y. split; [now left|]. intros [Hy|(-> & _)]; assumption.
    + destruct (filter (fun name => negb (mem name valid)) only) as [|y l] eqn:Ef.
      * apply (Hgo _ H). intros y. rewrite set_add_In. split; [intros [Hy|Hy]; [now left|right; split; [exact Hy|subst y; discriminate]]|]. intros [Hy|(Hy & _)]; auto.
      * assert (In y (filter (fun name => negb (mem name valid)) only)) as Hy by (rewrite Ef; now left). apply filter_In in Hy as [Hy1 Hy2].
        exists [], item, items, y. rewrite Es. split; [reflexivity|]. split; [discriminate|]. split; [intros Hi; apply mem_In in Hi; congruence|]. split; [intros []|]. split; [intros Hv; apply mem_In in Hv; rewrite Hv in Hy2; discriminate|]. now left.
Qed.
Lemma rejected_exact names socket_names o :
  (exists lines, only_filter names socket_names o = inr lines) <->
  exists pre a mid b post, s_syscalls o = Some (join [","%char] (pre ++ a :: mid ++ b :: post)) /\ (forall x, In x (pre ++ a :: mid ++ b :: post) -> ~ In ","%char x) /\
    strip a <> [] /\ ~ In (strip a) (map snd names) /\ strip b <> [] /\ ~ In (strip b) (map strip (pre ++ a :: mid)).
Proof.
  split.
  - intros (lines & H). unfold only_filter in H. destruct (s_syscalls o) as [[|c t]|]; try discriminate. destruct (only_items _ _ _) as [l|ls] eqn:E; [discriminate|].
    apply items_rejected in E as (pre & b & post & x & Es & Hb & _ & Hb2 & Hx & [[]|(a & Ha & -> & Hn)]). apply in_split in Ha as (p1 & p2 & ->).
    exists p1, a, p2, b, post. rewrite <- app_assoc in Es. cbn [app] in Es. split; [rewrite <- Es; f_equal; symmetry; apply (join_split ","%char (c :: t))|]. split; [intros y Hy; rewrite <- Es in Hy; exact (proj2 (join_split ","%char (c :: t)) y Hy)|]. auto.
  - intros (pre & a & mid & b & post & H1 & H2 & H3 & H4 & H5 & H6). destruct (unknown_rejected names socket_names o _ pre a mid b post H1 eq_refl H2 H3 H4 H5 H6) as (lines & x & E & _). eauto.
Qed.

(** ** C87 *)
Lemma exit_text ns title c : 0 <= c < 256 -> formatProcessStatus ns c title = title ++ wrong_exit_text ns c.
Proof.
  intros Hc. unfold wrong_exit_text.
  destruct (Z.eqb_spec c 0) as [->|]; [reflexivity|]. destruct (Z.eqb_spec c 127) as [->|]; [reflexivity|]. destruct (Z.eqb_spec c 128) as [->|]; [unfold formatProcessStatus; cbn -[app]; now rewrite <- app_assoc|]. destruct (Z.eqb_spec c 255) as [->|]; [unfold formatProcessStatus; cbn -[app]; now rewrite <- app_assoc|].
  destruct (c <? 127) eqn:E; [apply Z.ltb_lt in E; replace c with (encode (Killed c false)) at 1 by (cbn; lia); rewrite status_text by (cbn; lia); now rewrite app_nil_r|].
  apply Z.ltb_ge in E. replace c with (encode (Killed (c - 128) true)) at 1 by (cbn; lia). rewrite status_text by (cbn; lia). now rewrite <- ?app_assoc.
Qed.
Lemma exit_exact p ns tg s c : running_linux p = true -> tg_siginfo tg = Ok s -> si_status s = chld_status (ChildExited c) -> 0 <= c < 256 ->
  exists r, childExit p ns tg = Ok r /\ r_text r = T "Child process " ++ str_int (si_pid s) ++ wrong_exit_text ns c /\
  (r_text r = chld_text ns (si_pid s) (ChildExited c) <-> c = 0).
Proof.
  intros Hl Hs He Hc. cbn [chld_status] in He. destruct (child_reason p ns tg s Hl Hs) as (r & H1 & _ & H2). exists r. split; [exact H1|].
  assert (r_text r = T "Child process " ++ str_int (si_pid s) ++ wrong_exit_text ns c) as E by (rewrite H2, He, exit_text by exact Hc; now rewrite <- app_assoc).
  split; [exact E|]. rewrite E. unfold chld_text. split.
  - intros H. apply app_inv_head, app_inv_head in H. unfold wrong_exit_text in H. destruct (Z.eqb_spec c 0) as [?|Hn]; [assumption|exfalso].
    destruct (c =? 127); [discriminate H|]. destruct (c =? 128); [discriminate H|]. destruct (c =? 255); [discriminate H|]. destruct (c <? 127); discriminate H.
  - intros ->. reflexivity.
Qed.

(** ** C22 *)
Lemma items_fail repr l : (mapM (env_item repr) l = Err ETypeError <-> exists x, In x l /\ ~ In "="%char x) /\ (forall e, mapM (env_item repr) l = Err e -> e = ETypeError).
Proof.
  induction l as [|x l (IH1 & IH2)]; [split; [split; [discriminate|intros (x & [] & _)]|discriminate]|]. cbn [mapM]. unfold env_item at 1 3. destruct (split1 "="%char x) as [[a b]|] eqn:E; cbn [bind].
  - assert (In "="%char x) as Hx by (apply split1_spec in E as (-> & _); apply in_app_iff; right; now left).
    destruct (mapM (env_item repr) l) as [ys|e]; cbn [bind].
    + split; [|discriminate]. split; [discriminate|]. intros (y & [<-|Hy] & Hn); [contradiction|]. assert (Ok ys = Err ETypeError) as H by (apply IH1; exists y; auto). discriminate H.
    + split; [|exact IH2]. rewrite IH1. split; [intros (y & Hy & Hn); exists y; split; [now right|exact Hn]|]. intros (y & [<-|Hy] & Hn); [contradiction|]. exists y. auto.
  - apply split1_none in E. split; [split; [intros _; exists x; split; [now left|exact E]|reflexivity]|now intros e [= <-]].
Qed.
Lemma env_exact repr max env keep : max <> 0 -> first_fit max env keep ->
  (format_env repr (Some max) env = Err ETypeError <-> exists x, In x (ProcSpec.selected keep env) /\ ~ In "="%char x) /\
  (forall e, format_env repr (Some max) env = Err e -> e = ETypeError) /\
  (forall m, m = None \/ m = Some 0 -> exists t, format_env repr m env = Ok t).
Proof.
  intros Hm Hk. unfold format_env. rewrite (proj2 (Z.eqb_neq max 0) Hm). destruct (truncate_env max 0 env) as [kept removed] eqn:E.
  apply truncate_first_fit in E as (keep' & Hk' & -> & _). rewrite (first_fit_unique _ _ _ _ Hk Hk'). destruct (items_fail repr (ProcSpec.selected keep' env)) as (H1 & H2).
  destruct (mapM (env_item repr) (ProcSpec.selected keep' env)) as [ys|e]; cbn [bind].
  - split; [split; [discriminate|intros H; apply H1 in H; discriminate H]|]. split; [discriminate|]. intros m [->| ->]; eexists; reflexivity.
  - specialize (H2 e eq_refl). subst e. split; [rewrite <- H1; split; reflexivity|]. split; [now intros e [= <-]|]. intros m [->| ->]; eexists; reflexivity.
Qed.
