(** * OpenProofs: proofs about open files. *)
From Coq Require Import ZArith List Ascii String Bool Lia.
From Verif Require Import PyBase PyFacts PyInt PyIntFacts Platform HostModel HostProofs MapModel XrayModel OpenModel OpenSpec.
Import ListNotations.
Open Scope Z_scope.

Lemma text_eqb_same a : text_eqb a a = true.
Proof. now apply text_eqb_eq. Qed.
Lemma without_head n s : without n (n :: s) = s.
Proof. cbn [without]. now rewrite text_eqb_same. Qed.
Lemma without_other n m s : n <> m -> without n (m :: s) = m :: without n s.
Proof. intros H. cbn [without]. destruct (text_eqb m n) eqn:E; [|reflexivity]. apply text_eqb_eq in E. congruence. Qed.

Lemma open_then {A B} name (r : res A) (f : A -> M B) : (forall a s, fst (f a (name :: s)) = s) -> clean (mbind (open_file name r) f).
Proof. intros H s. unfold mbind, open_file. destruct r as [a|e]; [apply H|reflexivity]. Qed.
Lemma io_clean {A} (m : M A) e : clean m -> clean (io_error m e).
Proof. intros H s. unfold io_error. specialize (H s). destruct (m s) as [s' r]. exact H. Qed.
Lemma finally_close {A} (r : res A) name s : fst (finally (lift r) (close_file name) (name :: s)) = s.
Proof. unfold finally, lift, close_file. now rewrite without_head. Qed.
Lemma finally_snd {A} (r : res A) name s : snd (finally (lift r) (close_file name) s) = r.
Proof. reflexivity. Qed.
Lemma openProc_then {A B} path (r : res A) (f : A -> M B) : (forall a s, fst (f a ((T "/proc/" ++ path) :: s)) = s) -> clean (mbind (openProc path r) f).
Proof.
  intros H s. unfold mbind, openProc, io_error, open_file. destruct r as [a|e]; [apply H|]. destruct e; reflexivity.
Qed.

Lemma readProc_clean path r : clean (readProc path r).
Proof. apply openProc_then. intros a s. apply finally_close. Qed.
Lemma readProcessProc_clean pid key r : clean (readProcessProc pid key r).
Proof. apply io_clean, open_then. intros a s. apply finally_close. Qed.
Lemma maps_clean has_proc pid r : clean (readProcessMappings has_proc pid r).
Proof.
  intros s. unfold readProcessMappings. destruct has_proc; cbn [negb]; [|reflexivity]. unfold mbind, openProc, io_error, open_file.
  destruct r as [l|e]; [apply (finally_close _ (T "/proc/" ++ pid ++ T "/maps"))|]. destruct e; reflexivity.
Qed.
Lemma map_lines_all l : map_lines l (Ok tt) = mapM parse_mapping l.
Proof. induction l as [|x l IH]; [reflexivity|]. cbn [map_lines mapM]. now rewrite IH. Qed.
Lemma maps_agree p decode pid data t s : running_linux p = true -> text_of decode data = Ok t ->
  snd (readProcessMappings true pid (Ok (Lines (file_lines t) None)) s) = MapModel.readProcessMappings p decode (Ok data).
Proof.
  intros L D. unfold readProcessMappings, MapModel.readProcessMappings. rewrite L. cbn [negb]. rewrite D. cbn [bind].
  unfold mbind, openProc, io_error, open_file. rewrite finally_snd. cbn [l_lines l_end l_error]. apply map_lines_all.
Qed.

(** ** getSystemBoot *)
Lemma btime_dec line : starts_with (T "btime ") line = true <-> is_btime line.
Proof.
  unfold is_btime. split; [|intros [rest ->]; apply starts_with_app].
  intros H. apply starts_with_spec in H. exact H.
Qed.
Lemma btime_false line : starts_with (T "btime ") line = false <-> ~ is_btime line.
Proof. rewrite <- btime_dec. destruct (starts_with (T "btime ") line); split; congruence. Qed.
Lemma skip_btime rest : skipn 6 (T "btime " ++ rest) = rest.
Proof. reflexivity. Qed.
Lemma boot_skip zone before l last : Forall (fun line => ~ is_btime line) before -> boot_lines zone (before ++ l) last = boot_lines zone l last.
Proof. induction 1 as [|x before X _ IH]; [reflexivity|]. cbn [app boot_lines]. apply btime_false in X. rewrite X. exact IH. Qed.
Lemma boot_found zone rest after last : boot_lines zone ((T "btime " ++ rest) :: after) last
  = do seconds <- py_int 10 rest; do btime <- timestampUNIX zone seconds true; Ok (Some btime).
Proof.
  cbn [boot_lines]. assert (starts_with (T "btime ") (T "btime " ++ rest) = true) as -> by (apply btime_dec; now exists rest). reflexivity.
Qed.
Lemma split_first (P : text -> Prop) (dec : forall x, P x \/ ~ P x) l : Forall (fun x => ~ P x) l \/ exists before x after, l = before ++ x :: after /\ Forall (fun x => ~ P x) before /\ P x.
Proof.
  induction l as [|x l IH]; [left; constructor|]. destruct (dec x) as [H|H]; [right; exists [], x, l; split; [reflexivity|split; [constructor|exact H]]|].
  destruct IH as [IH|(b & y & a & -> & F & Y)]; [left; now constructor|]. right. exists (x :: b), y, a. split; [reflexivity|]. split; [now constructor|exact Y].
Qed.
Lemma is_btime_dec x : is_btime x \/ ~ is_btime x.
Proof. rewrite <- btime_dec. destruct (starts_with (T "btime ") x); [now left|right; congruence]. Qed.
Lemma app_first (l1 l2 : list text) x y r1 r2 : l1 ++ x :: r1 = l2 ++ y :: r2 -> Forall (fun x => ~ is_btime x) l1 -> Forall (fun x => ~ is_btime x) l2 -> is_btime x -> is_btime y ->
  l1 = l2 /\ x = y /\ r1 = r2.
Proof.
  revert l2. induction l1 as [|a l1 IH]; intros [|b l2] E F1 F2 X Y; cbn [app] in E.
  - injection E as -> ->. now repeat split.
  - injection E as -> _. inversion F2; contradiction.
  - injection E as -> _. inversion F1; contradiction.
  - injection E as -> E. inversion F1; inversion F2; subst. destruct (IH l2 E) as (-> & -> & ->); try assumption. now repeat split.
Qed.
Lemma boot_fails zone l : fails (boot_lines zone (l_lines l) (l_end l)) <-> boot_spoiled zone l.
Proof.
  unfold boot_spoiled. destruct (split_first _ is_btime_dec (l_lines l)) as [F|(b & x & a & E & F & X)].
  - assert (boot_lines zone (l_lines l) (l_end l) = do _ <- l_end l; Ok None) as ->.
    { rewrite <- (app_nil_r (l_lines l)). rewrite boot_skip by exact F. reflexivity. }
    unfold l_end. destruct (l_error l) as [e|] eqn:Er; cbn [bind].
    + split; [intros _; left; split; [exact F|congruence]|]. intros _ v. discriminate.
    + split; [intros H; exfalso; exact (H None eq_refl)|]. intros [[_ N]|(b & r & a & E & _ & _)]; [congruence|].
      rewrite E in F. apply Forall_app in F. destruct F as [_ F]. inversion F as [|? ? N _]; subst. exfalso. apply N. now exists r.
  - destruct X as [rest ->]. rewrite E, boot_skip by exact F. rewrite boot_found. split.
    + intros H. right. exists b, rest, a. split; [reflexivity|split; [exact F|]]. intros n P d D. rewrite P in H. cbn [bind] in H. rewrite D in H. exact (H (Some d) eq_refl).
    + intros [[G _]|(b' & r' & a' & E' & F' & H)].
      * apply Forall_app in G. destruct G as [_ G]. inversion G as [|? ? N _]; subst. exfalso. apply N. now exists rest.
      * destruct (app_first _ _ _ _ _ _ E' F F') as (-> & R & ->); [now exists rest|now exists r'|].
        apply app_inv_head in R. subst r'. intros v. destruct (py_int 10 rest) as [n|e] eqn:P; cbn [bind]; [|discriminate].
        specialize (H n eq_refl). destruct (timestampUNIX zone n true) as [d|e]; cbn [bind]; [exfalso; exact (H d eq_refl)|discriminate].
Qed.
Lemma fails_err {A} (r : res A) : fails r <-> exists e, r = Err e.
Proof. split; [destruct r as [a|e]; [intros H; exfalso; exact (H a eq_refl)|intros _; now exists e]|intros [e ->] a; discriminate]. Qed.
Lemma boot_left zone l s : fst (getSystemBoot zone None (Ok l) s) = T "/proc/stat" :: s <-> boot_spoiled zone l.
Proof.
  rewrite <- boot_fails, fails_err. unfold getSystemBoot, mbind, openProc, io_error, open_file, lift, close_file.
  destruct (boot_lines zone (l_lines l) (l_end l)) as [v|e]; cbn [fst].
  - split; [|intros [e E]; discriminate]. intros H. exfalso.
    assert (without (T "/proc/stat") ((T "/proc/" ++ T "stat") :: s) = s) as W by apply without_head.
    destruct v; cbn [fst] in H; rewrite W in H; apply (f_equal (@List.length _)) in H; cbn in H; lia.
  - split; [intros _; now exists e|reflexivity].
Qed.
Lemma boot_clean zone value r : (value <> None \/ (exists e, r = Err e) \/ exists l, r = Ok l /\ ~ boot_spoiled zone l) -> clean (getSystemBoot zone value r).
Proof.
  intros H s. unfold getSystemBoot. destruct value as [v|]; [reflexivity|]. destruct H as [H|[[e ->]|(l & -> & H)]]; [congruence| |].
  - unfold mbind, openProc, io_error, open_file. destruct e; reflexivity.
  - unfold mbind, openProc, io_error, open_file, lift, close_file. destruct (boot_lines zone (l_lines l) (l_end l)) as [v|e] eqn:E.
    + assert (without (T "/proc/stat") ((T "/proc/" ++ T "stat") :: s) = s) as W by apply without_head.
      destruct v; exact W.
    + exfalso. apply H, boot_fails, fails_err. now exists e.
Qed.
Lemma boot_linux zone before n after error s : Forall (fun line => ~ is_btime line) before -> 0 <= n <= 2147483647 -> Z.abs (zone 0) <= 86400 ->
  getSystemBoot zone None (Ok (Lines (before ++ boot_line n :: after) error)) s = (s, Ok (n + zone 0)).
Proof.
  intros F N Z. unfold getSystemBoot, mbind, openProc, io_error, open_file, lift, close_file. cbn [l_lines].
  unfold boot_line. rewrite boot_skip by exact F. rewrite boot_found.
  assert (py_int 10 (str_int n ++ [z2b 10]) = Ok n) as -> by (apply (py_int_str n [] [z2b 10]); [constructor|repeat constructor]). cbn [bind].
  rewrite date_local by assumption. cbn [bind].
  assert (without (T "/proc/stat") ((T "/proc/" ++ T "stat") :: s) = s) as W by apply without_head. now rewrite W.
Qed.

(** ** dumpProcessInfo *)
Lemma starts_iff p line : starts_with (T p) line = true <-> exists rest, line = T p ++ rest.
Proof. split; [apply starts_with_spec|intros [rest ->]; apply starts_with_app]. Qed.
Lemma mapM_numbers l : fails (mapM (py_int 10) l) <-> ~ Forall (fun w => exists n, py_int 10 w = Ok n) l.
Proof.
  induction l as [|w l IH]; cbn [mapM].
  - split; [intros H; exfalso; exact (H [] eq_refl)|intros H; exfalso; apply H; constructor].
  - destruct (py_int 10 w) as [n|e] eqn:E; cbn [bind].
    + split.
      * intros H F. inversion F as [|? ? _ F']; subst. refine (proj1 IH _ F'). intros v V. rewrite V in H. cbn [bind] in H. exact (H (n :: v) eq_refl).
      * intros H. assert (fails (mapM (py_int 10) l)) as G by (apply IH; intros F; apply H; constructor; [now exists n|exact F]).
        apply fails_err in G. destruct G as [e ->]. cbn [bind]. intros v. discriminate.
    + split; [|intros _ v; discriminate]. intros _ F. inversion F as [|? ? [n N] _]; subst. congruence.
Qed.
Lemma ids_fails line : fails (ids line) <-> ~ numbers line.
Proof. apply mapM_numbers. Qed.
Lemma ids_ok line i : ids line = Ok i -> numbers line.
Proof.
  intros H. assert (~ ~ numbers line) as N by (rewrite <- ids_fails; intros F; exact (F i H)). revert N. unfold numbers. generalize (split_char (z2b 9) (skipn 5 line)).
  clear. intros l N. induction l as [|w l IH]; [constructor|]. destruct (py_int 10 w) as [n|e] eqn:E.
  - constructor; [now exists n|]. apply IH. intros F. apply N. intros G. inversion G; contradiction.
  - exfalso. apply N. intros G. inversion G as [|? ? [n X] _]; subst. congruence.
Qed.
Lemma status_good l : forall last user group, (exists r, status_lines l last user group = Ok r) <-> (last = Ok tt /\ forall line, In line l -> id_line line -> numbers line).
Proof.
  induction l as [|x l IH]; intros last user group; cbn [status_lines].
  - destruct last as [[]|e]; cbn [bind]; split; [intros _; split; [reflexivity|intros ? []]|intros _; now eexists|intros [r R]; discriminate|intros [R _]; discriminate].
  - assert (id_line x <-> starts_with (T "Uid:") x = true \/ starts_with (T "Gid:") x = true) as D by (unfold id_line; now rewrite !starts_iff).
    assert (forall b o, (exists u, (if b : bool then do i <- ids x; Ok (Some i) else Ok o) = Ok u) <-> (b = true -> numbers x)) as K.
    { intros b o. destruct b; [|split; [discriminate|intros _; now eexists]]. split.
      - intros [u U] _. destruct (ids x) as [i|e] eqn:E; [exact (ids_ok x i E)|discriminate].
      - intros N. specialize (N eq_refl). destruct (ids x) as [i|e] eqn:E; cbn [bind]; [now eexists|]. exfalso. refine (proj1 (ids_fails x) _ N). rewrite E. intros i. discriminate. }
    transitivity (((starts_with (T "Uid:") x = true -> numbers x) /\ (starts_with (T "Gid:") x = true -> numbers x)) /\ (last = Ok tt /\ forall line, In line l -> id_line line -> numbers line)).
    + rewrite <- (K _ user), <- (K _ group). split.
      * intros [r R]. destruct (if starts_with (T "Uid:") x then do i <- ids x; Ok (Some i) else Ok user) as [u|e]; cbn [bind] in R; [|discriminate].
        destruct (if starts_with (T "Gid:") x then do i <- ids x; Ok (Some i) else Ok group) as [g|e]; cbn [bind] in R; [|discriminate].
        split; [split; now eexists|]. apply (IH last u g). now exists r.
      * intros [[[u ->] [g ->]] N]. cbn [bind]. now apply IH.
    + split.
      * intros [[A B] [L N]]. split; [exact L|]. intros line [<-|I] J; [apply D in J; destruct J; auto|now apply N].
      * intros [L N]. split; [split; intros J; apply (N x); [now left|apply D; tauto|now left|apply D; tauto]|]. split; [exact L|]. intros line I. apply N. now right.
Qed.
Lemma end_none l : l_end l = Ok tt <-> l_error l = None.
Proof. unfold l_end. destruct (l_error l); split; congruence. Qed.
Definition status_name (pid : text) : text := T "/proc/" ++ pid ++ T "/status".
Lemma status_left pid l log s :
  (good_status l -> fst (dumpStatus pid (Ok l) log s) = s) /\ (~ good_status l -> fst (dumpStatus pid (Ok l) log s) = status_name pid :: s).
Proof.
  assert (good_status l <-> exists r, status_lines (l_lines l) (l_end l) None None = Ok r) as G by (unfold good_status; rewrite status_good, end_none; tauto).
  unfold dumpStatus, mbind, openProc, io_error, open_file, lift, close_file.
  destruct (status_lines (l_lines l) (l_end l) None None) as [[u g]|e].
  - split; [intros _|intros N; exfalso; apply N, G; now eexists].
    assert (without (T "/proc/" ++ pid ++ T "/status") ((T "/proc/" ++ pid ++ T "/status") :: s) = s) as -> by apply without_head.
    cbn [fst snd]. destruct (show_ids log u) as [[]|e]; [|reflexivity]. reflexivity.
  - split; [intros N; apply G in N; destruct N; discriminate|]. reflexivity.
Qed.
Lemma status_closed pid e log : clean (dumpStatus pid (Err e) log).
Proof. intros s. unfold dumpStatus, mbind, openProc, io_error, open_file. destruct e; reflexivity. Qed.

(** ** gcore *)
Lemma names_differ a : T "/proc/" ++ a ++ T "/maps" <> T "/proc/" ++ a ++ T "/mem".
Proof. intros E. apply app_inv_head, app_inv_head in E. discriminate. Qed.
Lemma dump_differs a b c : T "/proc/" ++ a ++ b <> T "/vmdump/" ++ c.
Proof. discriminate. Qed.
Lemma gcore_ok python3 child argv1 maps mem_file dump mem write s : snd (gcore python3 child argv1 maps mem_file dump mem write s) = Ok tt ->
  fst (gcore python3 child argv1 maps mem_file dump mem write s) = s.
Proof.
  unfold gcore, mbind, open_file, lift, close_file. destruct maps as [l|e]; [|discriminate]. destruct (if python3 then _ else _) as [[]|e]; [|discriminate].
  destruct argv1 as [a|]; [|discriminate]. destruct dump as [[]|e]; [|discriminate]. destruct (l_end l) as [[]|e]; [|discriminate].
  destruct (copy_lines mem write (l_lines l)) as [[]|e]; [|discriminate]. intros _. cbn [fst].
  repeat first [rewrite without_head | rewrite without_other by first [apply dump_differs | apply names_differ]]. reflexivity.
Qed.
Lemma gcore_left python3 child argv1 l mem_file dump mem write s e : snd (gcore python3 child argv1 (Ok l) mem_file dump mem write s) = Err e ->
  exists others, fst (gcore python3 child argv1 (Ok l) mem_file dump mem write s) = others ++ (T "/proc/" ++ child ++ T "/maps") :: s.
Proof.
  unfold gcore, mbind, open_file, lift, close_file. destruct (if python3 then _ else _) as [[]|e1]; [|intros _; now exists []].
  destruct argv1 as [a|]; [|intros _; now exists [T "/proc/" ++ child ++ T "/mem"]].
  destruct dump as [[]|e1]; [|intros _; now exists [T "/proc/" ++ child ++ T "/mem"]].
  destruct (l_end l) as [[]|e1]; [|intros _; now exists [T "/vmdump/" ++ a ++ T ".dump"; T "/proc/" ++ child ++ T "/mem"]].
  destruct (copy_lines mem write (l_lines l)) as [[]|e1]; [|intros _; now exists [T "/vmdump/" ++ a ++ T ".dump"; T "/proc/" ++ child ++ T "/mem"]].
  discriminate.
Qed.
Lemma gcore_python3 child argv1 l mem_file dump mem write s :
  gcore true child argv1 (Ok l) mem_file dump mem write s = ((T "/proc/" ++ child ++ T "/maps") :: s, Err EValueError).
Proof. reflexivity. Qed.
Lemma copy_agree mem l : copy_lines mem (fun _ => Ok tt) l = snd (gcore_lines mem l).
Proof.
  induction l as [|x l IH]; [reflexivity|]. cbn [copy_lines gcore_lines]. destruct (gcore_line mem x); cbn [bind]; [|reflexivity]. rewrite IH. now destruct (gcore_lines mem l).
Qed.
Lemma gcore_agree python3 argv1 open_maps open_mem open_dump mem process s :
  let child := child_pid process in
  snd (gcore python3 child argv1 (match open_maps (T "/proc/" ++ child ++ T "/maps") with Ok t => Ok (Lines (file_lines t) None) | Err e => Err e end)
    (open_mem (T "/proc/" ++ child ++ T "/mem")) (match argv1 with Some a => open_dump (T "/vmdump/" ++ a ++ T ".dump") | None => Ok tt end) mem (fun _ => Ok tt) s)
  = snd (XrayModel.gcore python3 argv1 open_maps open_mem open_dump mem process).
Proof.
  cbn zeta. unfold gcore, XrayModel.gcore, mbind, open_file, lift, close_file. destruct (open_maps _) as [t|e]; [|reflexivity].
  destruct (if python3 then _ else _) as [[]|e]; [|reflexivity]. destruct argv1 as [a|]; [|reflexivity]. destruct (open_dump _) as [[]|e]; [|reflexivity].
  cbn [l_end l_error l_lines]. rewrite copy_agree. destruct (gcore_lines mem (file_lines t)) as [w [[]|e]]; reflexivity.
Qed.

Lemma left_open : (exists zone r, ~ clean (getSystemBoot zone None r)) /\ (exists pid r log, ~ clean (dumpStatus pid r log))
  /\ exists child argv1 maps mem_file dump mem write, ~ clean (gcore true child argv1 maps mem_file dump mem write).
Proof.
  split; [|split].
  - exists (fun _ => 0), (Ok (Lines [T "btime now"] None)). intros H. specialize (H []). vm_compute in H. discriminate.
  - exists (T "1"), (Ok (Lines [T "Uid:" ++ [z2b 9] ++ T "root"] None)), (fun _ => Ok tt). intros H. specialize (H []). vm_compute in H. discriminate.
  - exists (T "1"), None, (Ok (Lines [] None)), (Ok tt), (Ok tt), (fun _ _ => Ok []), (fun _ => Ok tt). intros H. specialize (H []). vm_compute in H. discriminate.
Qed.

(** ** /proc/pid/mem *)
Section Mem.
  Context (pid : text) (s : files).
  Let name := mem_name pid.
  (** before the decision; opened; not opened; closed at the end *)
  Definition undecided (x : files * proc) : Prop := fst x = s /\ p_mem (snd x) = NoFile /\ p_fallback (snd x) = false.
  Definition holding (x : files * proc) : Prop := fst x = name :: s /\ p_mem (snd x) = OpenFile.
  Definition refused (x : files * proc) : Prop := fst x = s /\ p_mem (snd x) = NoFile /\ p_fallback (snd x) = true.
  Definition over (x : files * proc) : Prop := fst x = s /\ p_mem (snd x) = ClosedFile.

  Lemma holding_read size r data peek x : holding x -> holding (step pid (Read size r data peek) x).
  Proof.
    destruct x as [f [m fb ru at_]]. intros [H1 H2]. cbn in H1, H2. subst f m. unfold holding, step, readBytes. cbn [p_fallback p_mem]. destruct fb; [now split|].
    destruct data as [[|]|[]]; cbn; try (now split). destruct (size =? 0); now split.
  Qed.
  Lemma over_read size r data peek x : over x -> over (step pid (Read size r data peek) x).
  Proof. destruct x as [f [m fb ru at_]]. intros [H1 H2]. cbn in H1, H2. subst f m. unfold over, step, readBytes. cbn [p_fallback p_mem]. destruct fb; now split. Qed.
  Lemma refused_step o x : refused x -> refused (step pid o x).
  Proof.
    destruct x as [f [m fb ru at_]]. intros (H1 & H2 & H3). cbn in H1, H2, H3. subst f m fb. destruct o; cbn; now repeat split.
  Qed.
  Lemma over_step o x : over x -> over (step pid o x).
  Proof.
    intros H. destruct o; [now apply over_read| |]; destruct x as [f [m fb ru at_]]; destruct H as [H1 H2]; cbn in H1, H2; subst f m; now split.
  Qed.
  Lemma holding_end x : holding x -> over (step pid End x).
  Proof. destruct x as [f [m fb ru at_]]. intros [H1 H2]. cbn in H1, H2. subst f m. cbn [step notRunning p_mem]. unfold over. cbn [fst snd detach p_mem close_file]. split; [apply without_head|reflexivity]. Qed.
  Lemma holding_step o x : o <> End -> holding x -> holding (step pid o x).
  Proof. intros N H. destruct o; [now apply holding_read| |congruence]. destruct x as [f p]. exact H. Qed.
  Lemma undecided_step o x : ~ decides o -> undecided x -> undecided (step pid o x).
  Proof.
    intros N. destruct x as [f [m fb ru at_]]. intros (H1 & H2 & H3). cbn in H1, H2, H3. subst f m fb. destruct o as [size r data peek| |]; [|now repeat split|now repeat split].
    unfold undecided, step, readBytes. cbn [p_fallback p_mem]. destruct r as [[]|e].
    - exfalso. apply N. exists size, (Ok tt), data, peek. split; [reflexivity|now left].
    - unfold open_file. destruct e; try (now repeat split). exfalso. apply N. eexists _, _, _, _. split; [reflexivity|right; now eexists].
  Qed.
  Lemma undecided_open size data peek x : undecided x -> holding (step pid (Read size (Ok tt) data peek) x).
  Proof.
    destruct x as [f [m fb ru at_]]. intros (H1 & H2 & H3). cbn in H1, H2, H3. subst f m fb. unfold holding, step, readBytes. cbn [p_fallback p_mem open_file].
    destruct data as [[|]|[]]; cbn; try (now split). destruct (size =? 0); now split.
  Qed.
  Lemma undecided_refuse size n data peek x : undecided x -> refused (step pid (Read size (Err (EOSError n)) data peek) x).
  Proof. destruct x as [f [m fb ru at_]]. intros (H1 & H2 & H3). cbn in H1, H2, H3. subst f m fb. now repeat split. Qed.

  Lemma run_keep (P : files * proc -> Prop) (Q : op -> Prop) : (forall o x, Q o -> P x -> P (step pid o x)) -> forall l x, Forall Q l -> P x -> P (steps pid l x).
  Proof. intros H l. unfold steps. induction l as [|o l IH]; intros x F X; [exact X|]. cbn [fold_left]. inversion F; subst. apply IH; [assumption|now apply H]. Qed.
  Lemma steps_app l1 l2 x : steps pid (l1 ++ l2) x = steps pid l2 (steps pid l1 x).
  Proof. apply fold_left_app. Qed.
  Lemma steps_cons o l x : steps pid (o :: l) x = steps pid l (step pid o x).
  Proof. reflexivity. Qed.
  Lemma no_end_all l : ~ In End l -> Forall (fun o => o <> End) l.
  Proof. intros H. apply Forall_forall. intros o I E. subst. contradiction. Qed.
  Lemma decides_dec o : decides o \/ ~ decides o.
  Proof.
    destruct o as [size r data peek| |]; [|right; intros (a & b & c & d & E & _); discriminate|right; intros (a & b & c & d & E & _); discriminate].
    destruct r as [[]|e]; [left; eexists _, _, _, _; split; [reflexivity|now left]|].
    destruct e; try (right; intros (a & b & c & d & E & [K|[n K]]); injection E as <- <- <- <-; discriminate).
    left. eexists _, _, _, _. split; [reflexivity|right; now eexists].
  Qed.
  Lemma first_decision l : Forall (fun o => ~ decides o) l \/ exists before o after, l = before ++ o :: after /\ Forall (fun o => ~ decides o) before /\ decides o.
  Proof.
    induction l as [|o l IH]; [left; constructor|]. destruct (decides_dec o) as [D|D]; [right; exists [], o, l; split; [reflexivity|split; [constructor|exact D]]|].
    destruct IH as [IH|(b & y & a & -> & F & Y)]; [left; now constructor|]. right. exists (o :: b), y, a. split; [reflexivity|]. split; [now constructor|exact Y].
  Qed.
  Lemma end_dec (l : list op) : In End l \/ ~ In End l.
  Proof.
    induction l as [|o l IH]; [now right|]. destruct o; [| |now left; left]; (destruct IH as [IH|IH]; [left; now right|right; intros [E|I]; [discriminate|contradiction]]).
  Qed.
  Lemma cases l : let x := steps pid l (s, new_proc) in (held l /\ holding x) \/ (~ held l /\ (undecided x \/ refused x \/ over x)).
  Proof.
    cbn zeta. assert (undecided (s, new_proc)) as U by now repeat split. destruct (first_decision l) as [F|(b & o & a & -> & F & D)].
    - right. split; [|left; revert U; now apply (run_keep undecided (fun o => ~ decides o) undecided_step)].
      intros (b & size & data & peek & a & -> & _ & _). apply Forall_app in F. destruct F as [_ F]. inversion F as [|? ? N _]; subst. apply N.
      eexists _, _, _, _. split; [reflexivity|now left].
    - rewrite steps_app, steps_cons. assert (undecided (steps pid b (s, new_proc))) as V by (revert U; now apply (run_keep undecided (fun o => ~ decides o) undecided_step)).
      assert (forall b' size data peek a', b ++ o :: a = b' ++ Read size (Ok tt) data peek :: a' -> Forall (fun o => ~ decides o) b' -> b = b' /\ o = Read size (Ok tt) data peek /\ a = a') as Same.
      { clear V. intros b' size data peek a' E F'. revert b' E F'. induction b as [|y b IH]; intros [|z b'] E F'; cbn [app] in E.
        - injection E as -> ->. now repeat split.
        - injection E as -> _. inversion F'; contradiction.
        - injection E as -> _. inversion F as [|? ? N _]; subst. exfalso. apply N. eexists _, _, _, _. split; [reflexivity|now left].
        - injection E as -> E. inversion F; inversion F'; subst. destruct (IH ltac:(assumption) b' E ltac:(assumption)) as (-> & -> & ->). now repeat split. }
      destruct D as (size & r & data & peek & -> & [->|[n ->]]).
      + apply (undecided_open size data peek) in V. destruct (end_dec a) as [I|I].
        * right. split.
          -- intros (b' & s' & d' & p' & a' & E & F' & N). destruct (Same _ _ _ _ _ E F') as (-> & _ & ->). contradiction.
          -- right. right. apply in_split in I. destruct I as (a1 & a2 & ->). clear Same. rewrite steps_app, steps_cons.
             apply (run_keep over (fun _ => True) (fun o x _ => over_step o x)); [now apply Forall_forall|].
             assert (forall a1 x, holding x \/ over x -> holding (steps pid a1 x) \/ over (steps pid a1 x)) as K.
             { intros l. induction l as [|o l IH]; intros x X; [exact X|]. rewrite steps_cons. apply IH. destruct X as [X|X]; [|right; now apply over_step].
               destruct o; [left; now apply holding_step|left; now apply holding_step|right; now apply holding_end]. }
             destruct (K a1 _ (or_introl V)) as [H|H]; [now apply holding_end|now apply over_step].
        * left. split; [exists b, size, data, peek, a; now repeat split|].
          apply (run_keep holding (fun o => o <> End) holding_step); [now apply no_end_all|exact V].
      + right. split.
        * intros (b' & s' & d' & p' & a' & E & F' & N). destruct (Same _ _ _ _ _ E F') as (_ & X & _). discriminate.
        * right. left. apply (run_keep refused (fun _ => True) (fun o x _ => refused_step o x)); [now apply Forall_forall|]. now apply undecided_refuse.
  Qed.
  Lemma mem_held l : (held l -> fst (steps pid l (s, new_proc)) = name :: s) /\ (~ held l -> fst (steps pid l (s, new_proc)) = s).
  Proof.
    destruct (cases l) as [[H [X _]]|[N X]].
    - split; [intros _; exact X|contradiction].
    - split; [contradiction|]. intros _. destruct X as [[X _]|[[X _]|[X _]]]; exact X.
  Qed.
  Lemma mem_ended l : fst (steps pid (l ++ [End]) (s, new_proc)) = s.
  Proof.
    apply mem_held. intros (b & size & data & peek & a & E & _ & N). destruct (exists_last (l := Read size (Ok tt) data peek :: a)) as (m & z & Z); [discriminate|].
    rewrite Z in E. rewrite app_assoc in E. apply app_inj_tail in E. destruct E as [_ <-]. apply N. destruct m as [|y m]; cbn [app] in Z; [discriminate|]. injection Z as _ ->. apply in_or_app. right. now left.
  Qed.
  Lemma mem_late before size0 data0 peek0 middle after size r data peek : Forall (fun o => ~ decides o) before ->
    let x := steps pid (before ++ Read size0 (Ok tt) data0 peek0 :: middle ++ End :: after) (s, new_proc) in
    snd (readBytes pid size r data peek (snd x) (fst x)) = if p_fallback (snd x) then peek else Err EProcessError.
  Proof.
    intros F. cbn zeta. set (l := before ++ _). destruct (cases l) as [[(b & s1 & d1 & p1 & a & E & F' & N) _]|[_ X]].
    - exfalso. revert b E F'. unfold l. clear l. induction before as [|y before IH]; intros [|z b] E F'; cbn [app] in E.
      + injection E as -> -> -> <-. apply N. apply in_or_app. right. now left.
      + injection E as <- _. inversion F' as [|? ? K _]; subst. apply K. eexists _, _, _, _. split; [reflexivity|now left].
      + injection E as -> _. inversion F as [|? ? K _]; subst. apply K. eexists _, _, _, _. split; [reflexivity|now left].
      + injection E as -> E. inversion F; inversion F'; subst. eapply IH; eassumption.
    - unfold readBytes. destruct X as [X|[X|X]].
      + exfalso. revert X. unfold l. rewrite steps_app, steps_cons. intros X.
        assert (undecided (steps pid before (s, new_proc))) as V by (assert (undecided (s, new_proc)) as U by (now repeat split); revert U; now apply (run_keep undecided (fun o => ~ decides o) undecided_step)).
        apply (undecided_open size0 data0 peek0) in V.
        assert (forall a1 x, holding x \/ over x -> holding (steps pid a1 x) \/ over (steps pid a1 x)) as K.
        { intros q. induction q as [|o q IH]; intros x Y; [exact Y|]. rewrite steps_cons. apply IH. destruct Y as [Y|Y]; [|right; now apply over_step].
          destruct o; [left; now apply holding_step|left; now apply holding_step|right; now apply holding_end]. }
        destruct X as (_ & X & _). destruct (K (middle ++ End :: after) _ (or_introl V)) as [[_ H]|[_ H]]; rewrite H in X; discriminate.
      + destruct X as (_ & _ & ->). reflexivity.
      + destruct X as (_ & ->). destruct (p_fallback _); reflexivity.
  Qed.
End Mem.

(** ** Results *)
Lemma read_results path pid key n c s :
  readProc path (Err (EOSError n)) s = (s, Err EProcError) /\ readProc path (Ok c) s = (s, c)
  /\ readProcessProc pid key (Err (EOSError n)) s = (s, Err EProcError) /\ readProcessProc pid key (Ok (Err (EOSError n))) s = (s, Err EProcError)
  /\ (forall t, readProcessProc pid key (Ok (Ok t)) s = (s, Ok t)).
Proof.
  pose proof (readProc_clean path (Ok c) s) as C. repeat split; try reflexivity.
  - unfold readProc, mbind, openProc, io_error, open_file, finally, lift, close_file in *. cbn [fst] in *. now rewrite C.
  - pose proof (readProcessProc_clean pid key (Ok (Err (EOSError n))) s) as D. unfold readProcessProc, mbind, io_error, open_file, finally, lift, close_file in *. cbn [fst] in *. now rewrite D.
  - intros t. pose proof (readProcessProc_clean pid key (Ok (Ok t)) s) as D. unfold readProcessProc, mbind, io_error, open_file, finally, lift, close_file in *. cbn [fst] in *. now rewrite D.
Qed.
Lemma map_lines_err l e : Forall (fun x => exists m, parse_mapping x = Ok m) l -> map_lines l (Err e) = Err e.
Proof. induction 1 as [|x l [m M] _ IH]; [reflexivity|]. cbn [map_lines]. rewrite M. cbn [bind]. now rewrite IH. Qed.
Lemma map_lines_bad before x after last e : Forall (fun x => exists m, parse_mapping x = Ok m) before -> parse_mapping x = Err e -> map_lines (before ++ x :: after) last = Err e.
Proof. intros F X. induction F as [|y l [m M] _ IH]; cbn [app map_lines]; [now rewrite X|]. rewrite M. cbn [bind]. now rewrite IH. Qed.
Lemma maps_results pid n l s e : 
  readProcessMappings true pid (Err (EOSError n)) s = (s, Err EProcessError)
  /\ (Forall (fun x => exists m, parse_mapping x = Ok m) l -> readProcessMappings true pid (Ok (Lines l (Some e))) s = (s, Err e))
  /\ forall before x after error, Forall (fun x => exists m, parse_mapping x = Ok m) before -> parse_mapping x = Err e ->
     readProcessMappings true pid (Ok (Lines (before ++ x :: after) error)) s = (s, Err e).
Proof.
  assert (forall l e, map_lines (l_lines l) (l_end l) = Err e -> readProcessMappings true pid (Ok l) s = (s, Err e)) as K.
  { intros k e' H. pose proof (maps_clean true pid (Ok k) s) as D. unfold readProcessMappings in *. cbn [negb] in *.
    unfold mbind, openProc, io_error, open_file, finally, lift, close_file in *. cbn [fst] in D. rewrite D, H. reflexivity. }
  split; [reflexivity|]. split; [intros F; apply K; now apply map_lines_err|]. intros before x after error F X. apply K. now apply map_lines_bad.
Qed.
Lemma boot_results zone n l s v : getSystemBoot zone None (Err (EOSError n)) s = (s, Err EProcError)
  /\ (Forall (fun line => ~ is_btime line) l -> getSystemBoot zone None (Ok (Lines l None)) s = (s, Err EProcError))
  /\ forall r, getSystemBoot zone (Some v) r s = (s, Ok v).
Proof.
  split; [reflexivity|]. split; [|reflexivity]. intros F. unfold getSystemBoot, mbind, openProc, io_error, open_file, lift, close_file. cbn [l_lines l_end l_error].
  rewrite <- (app_nil_r l). rewrite boot_skip by exact F. cbn [boot_lines bind].
  assert (without (T "/proc/stat") ((T "/proc/" ++ T "stat") :: s) = s) as -> by apply without_head. reflexivity.
Qed.
Lemma not_id line : ~ id_line line -> starts_with (T "Uid:") line = false /\ starts_with (T "Gid:") line = false.
Proof.
  intros N. split; [destruct (starts_with (T "Uid:") line) eqn:E|destruct (starts_with (T "Gid:") line) eqn:E]; try reflexivity; exfalso; apply N; [left|right]; now apply starts_iff.
Qed.
Lemma status_skip before l last user group : Forall (fun line => ~ id_line line) before -> status_lines (before ++ l) last user group = status_lines l last user group.
Proof.
  intros F. induction F as [|x before X _ IH]; [reflexivity|]. cbn [app status_lines]. destruct (not_id x X) as [-> ->]. cbn [bind]. exact IH.
Qed.
Lemma no_tab n : ~ In (z2b 9) (str_int n).
Proof. intros I. pose proof (str_int_chars n) as F. rewrite Forall_forall in F. apply F in I. discriminate. Qed.
Lemma ids_of h a b c d : List.length h = 4%nat -> ids (ids_line h a b c d) = Ok [a; b; c; d].
Proof.
  intros H. unfold ids, ids_line. destruct h as [|x1 [|x2 [|x3 [|x4 [|]]]]]; cbn in H; try lia. clear H.
  change (skipn 5 ((x1 :: x2 :: x3 :: x4 :: []) ++ [z2b 9] ++ ?X)) with X.
  cbn [app]. rewrite !split_char_app by apply no_tab. rewrite split_char_none by (intros I; apply in_app_or in I; destruct I as [I|[I|[]]]; [exact (no_tab d I)|discriminate]).
  cbn [mapM]. rewrite !py_int_plain. cbn [bind].
  assert (py_int 10 (str_int d ++ [z2b 10]) = Ok d) as -> by (apply (py_int_str d [] [z2b 10]); [constructor|repeat constructor]). reflexivity.
Qed.
Lemma status_results pid n before u1 u2 u3 u4 middle g1 g2 g3 g4 after log s :
  dumpStatus pid (Err (EOSError n)) log s = (s, Ok tt)
  /\ (Forall (fun line => ~ id_line line) (before ++ middle ++ after) ->
      dumpStatus pid (Ok (Lines (before ++ ids_line (T "Uid:") u1 u2 u3 u4 :: middle ++ ids_line (T "Gid:") g1 g2 g3 g4 :: after) None)) log s
      = (s, match (do _ <- log [u1; u2; u3; u4]; log [g1; g2; g3; g4]) with Err EProcError => Ok tt | r => r end)).
Proof.
  split; [reflexivity|]. intros F. apply Forall_app in F. destruct F as [F1 F]. apply Forall_app in F. destruct F as [F2 F3].
  assert (status_lines (before ++ ids_line (T "Uid:") u1 u2 u3 u4 :: middle ++ ids_line (T "Gid:") g1 g2 g3 g4 :: after) (Ok tt) None None = Ok (Some [u1; u2; u3; u4], Some [g1; g2; g3; g4])) as E.
  { rewrite status_skip by exact F1. cbn [status_lines].
    assert (starts_with (T "Uid:") (ids_line (T "Uid:") u1 u2 u3 u4) = true) as -> by apply starts_with_app.
    assert (starts_with (T "Gid:") (ids_line (T "Uid:") u1 u2 u3 u4) = false) as -> by reflexivity.
    rewrite ids_of by reflexivity. cbn [bind]. rewrite status_skip by exact F2. cbn [status_lines].
    assert (starts_with (T "Gid:") (ids_line (T "Gid:") g1 g2 g3 g4) = true) as -> by apply starts_with_app.
    assert (starts_with (T "Uid:") (ids_line (T "Gid:") g1 g2 g3 g4) = false) as -> by reflexivity.
    rewrite ids_of by reflexivity. cbn [bind]. rewrite <- (app_nil_r after). rewrite status_skip by exact F3. reflexivity. }
  unfold dumpStatus, mbind, openProc, io_error, open_file, lift, close_file. cbn [l_lines l_end l_error]. rewrite E.
  assert (without (T "/proc/" ++ pid ++ T "/status") ((T "/proc/" ++ pid ++ T "/status") :: s) = s) as -> by apply without_head.
  cbn [fst snd show_ids]. destruct (log [u1; u2; u3; u4]) as [[]|[]]; cbn [bind]; try reflexivity. now destruct (log [g1; g2; g3; g4]) as [|[]].
Qed.
Lemma copy_ok mem write l : copy_lines mem write l = Ok tt <-> Forall (fun line => exists chunk, gcore_line mem line = Ok chunk /\ write chunk = Ok tt) l.
Proof.
  induction l as [|x l IH]; [split; [constructor|reflexivity]|]. cbn [copy_lines]. destruct (gcore_line mem x) as [c|e] eqn:C; cbn [bind].
  - destruct (write c) as [[]|e] eqn:W; cbn [bind].
    + rewrite IH. split; [intros F; constructor; [now exists c|exact F]|intros F; now inversion F].
    + split; [discriminate|]. intros F. inversion F as [|? ? (c' & C' & W') _]; subst. congruence.
  - split; [discriminate|]. intros F. inversion F as [|? ? (c' & C' & W') _]; subst. congruence.
Qed.
Lemma gcore_result child a l mem write s : snd (gcore false child (Some a) (Ok (Lines l None)) (Ok tt) (Ok tt) mem write s) = Ok tt
  <-> Forall (fun line => exists chunk, gcore_line mem line = Ok chunk /\ write chunk = Ok tt) l.
Proof.
  rewrite <- copy_ok. unfold gcore, mbind, open_file, lift, close_file. cbn [l_end l_error l_lines].
  destruct (copy_lines mem write l) as [[]|e]; split; (reflexivity || discriminate).
Qed.
